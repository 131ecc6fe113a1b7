(** Consequences of the invariant of the assembled OPC UA server. *)
From Verif Require Import Base QueueModel QueueSpec QueueProofs PoolModel PoolSpec PoolProofs EntProofs ModbusCodecModel ModbusCodecSpec
  ModbusClientModel ModbusClientProofs UaCodecModel UaCodecSpec UaCodecProofs UaCodecLocal UaTcpModel UaTcpSpec UaTcpProofs UaTcpRuns UaTcpFacts
  UaChanModel UaChanSpec UaChanProofs UaChanRuns UaChanFacts UaServiceModel UaServiceSpec UaServiceProofs UaServiceRuns UaServiceFacts
  UaSystemModel UaSystemSpec UaSystemProofs.
Local Open Scope Z_scope.
Notation inr x := (1 <= x <= 32) (only parsing).

(** * What is always defined *)
Section Total.
Variables (b0 : list Z) (v : tserver) (tr : utrace).
Hypothesis HR : ureach b0 v tr.

Lemma msg_total k m w : umsg_ok m -> inr (um_conn m) -> exists v' os, tsrv_step v (EvMsg k m w) = Some (v', os).
Proof.
  intros Hm Hu. destruct (conn_inv _ _ _ (UaTcpRuns.reach_inv _ _ _ HR) Hu) as (c & Hc & HT & En & Eg).
  assert (Hd : exists c' os, u_msg (um_conn m) k c m w = Some (c', os)).
  { pose proof HT as [_ _ S _]. unfold u_msg. destruct (t_st c) eqn:Est; [eauto|eauto|]. destruct S as (S1 & S2 & (fd & S3) & _).
    assert (He : exists c1 o res, u_message (um_conn m) k c m w = Some (c1, o, res)).
    { unfold u_message. rewrite message_packet by auto. set (c2 := match k with KOpn => z_chan c (Some (um_chan m)) | _ => c end).
      assert (E3 : t_link c2 = Some fd) by (unfold c2; destruct k; auto).
      destruct (match t_chan c2 with Some a => a =? um_chan m | None => false end); [|eauto].
      pose proof Hm as (_ & _ & _ & _ & _ & Hl). destruct (Z.leb_spec (um_len m) (Z.of_nat (length (um_data m)))); [|lia]. cbn [negb].
      unfold u_write. rewrite E3. destruct fd; [destruct w|]; eauto. }
    destruct He as (c1 & o & res & He). rewrite He.
    destruct (message_ok _ _ _ _ _ _ _ _ Hm He) as (M1 & M2 & _ & _ & _ & [(-> & _)|(-> & ->)]); [eauto|].
    cbn [u_then]. rewrite (fail_eq (um_conn m) c1 _ ltac:(congruence) (eq_trans M2 S2)). eauto. }
  destruct Hd as (c' & os & Hd). destruct (UaTcpProofs.msg_step _ _ _ _ _ _ _ _ HT Hm eq_refl Hd) as (_ & HQ).
  destruct (on_total v tr (um_conn m) (fun c => u_msg (um_conn m) k c m w) c _ _ (UaTcpRuns.reach_inv _ _ _ HR) Hu Hc Hd HQ) as (p' & E & _).
  cbn [tsrv_step]. eauto.
Qed.
Lemma rel_total uid : inr uid -> exists v' os, tsrv_step v (EvRelease uid) = Some (v', os).
Proof.
  intros Hu. destruct (conn_inv _ _ _ (UaTcpRuns.reach_inv _ _ _ HR) Hu) as (c & Hc & HT & En & Eg).
  assert (Hd : exists c' os, u_release uid c = Some (c', os)).
  { pose proof HT as [_ _ S _]. unfold u_release. destruct (t_st c) eqn:Est; [eauto|eauto|]. destruct S as (_ & S2 & _).
    rewrite (tr_init uid c _ ltac:(congruence) S2). eauto. }
  destruct Hd as (c' & os & Hd). destruct (release_step _ _ _ _ _ HT Hd) as (_ & HQ).
  destruct (on_total v tr uid (fun c => u_release uid c) c _ _ (UaTcpRuns.reach_inv _ _ _ HR) Hu Hc Hd HQ) as (p' & E & _). cbn [tsrv_step]. eauto.
Qed.
Lemma err_total uid : inr uid -> exists v' os, tsrv_step v (EvError uid) = Some (v', os).
Proof.
  intros Hu. destruct (conn_inv _ _ _ (UaTcpRuns.reach_inv _ _ _ HR) Hu) as (c & Hc & HT & En & Eg).
  destruct (error_step _ _ _ HT) as (_ & HQ).
  destruct (on_total v tr uid (fun c => Some (u_error c, [])) c _ _ (UaTcpRuns.reach_inv _ _ _ HR) Hu Hc eq_refl HQ) as (p' & E & _). cbn [tsrv_step]. eauto.
Qed.

(** The only events of the outside world that may end in undefined behaviour. *)
Definition net_fault (e : tev) : Prop :=
  exists uid bs w, e = EvData uid (RxBytes bs) w /\
    let n := Z.of_nat (length (g_rx (uview_of uid tr)) + length bs) in
    (ulive uid tr /\ ~ uacked uid tr /\ 8 <= n) \/ (uacked uid tr /\ 4072 < n).

Lemma net_defined e : tev_ok e -> tsrv_enabled v e = true -> match e with EvMsg _ _ _ | EvRelease _ => False | _ => True end ->
  tsrv_step v e = None -> net_fault e.
Proof.
  intros Hok Hen Hne Hs. destruct e as [lok aok tok|uid r w|uid|uid|k m w|uid]; try contradiction.
  - exfalso. cbn [tsrv_step] in Hs. destruct lok, aok; cbn [andb negb] in Hs; try discriminate Hs.
    destruct (accept_total _ _ _ tok HR) as (v' & os & E & _). cbn [tsrv_step andb negb] in E. congruence.
  - assert (Hu : inr uid) by (cbn in Hen; destruct (Z.leb_spec 1 uid); [|discriminate]; destruct (Z.ltb_spec uid 33); [lia|discriminate]).
    destruct (conn_inv _ _ _ (UaTcpRuns.reach_inv _ _ _ HR) Hu) as (c & Hc & HT & En & Eg). pose proof (enabled_link _ _ _ _ _ Hc Hen) as Hk.
    assert (G : forall c' os, u_data uid c r w = Some (c', os) -> False).
    { intros c' os Hd. assert (Hlr : lrx_ok r) by (destruct r; exact Hok || exact I). destruct (data_step _ _ _ _ _ _ _ HT Hk Hlr Hd) as (_ & HQ).
      destruct (on_total v tr uid (fun c => u_data uid c r w) c _ _ (UaTcpRuns.reach_inv _ _ _ HR) Hu Hc Hd HQ) as (p' & E & _). cbn [tsrv_step] in Hs. congruence. }
    pose proof (acked_st _ _ _ HT) as HA. pose proof HT as [HL HB S Rx]. destruct (t_st c) eqn:Est.
    + exfalso. eapply G. unfold u_data. rewrite Est. reflexivity.
    + destruct r as [| |bs].
      * exfalso. unfold u_data in G. rewrite Est in G. unfold u_hello, u_receive in G. rewrite Hk in G.
        destruct (1024 <? Z.of_nat (k_head (t_rx c))); [|eapply G; reflexivity]. destruct S as (_ & S2 & _). cbn [u_then] in G.
        rewrite (tr_init uid c _ ltac:(congruence) S2) in G. eapply G; reflexivity.
      * exfalso. unfold u_data in G. rewrite Est in G. unfold u_hello, u_receive in G. rewrite Hk in G. destruct S as (_ & S2 & _).
        destruct (1024 <? Z.of_nat (k_head (t_rx c))); cbn [u_then] in G; rewrite (tr_init uid c _ ltac:(congruence) S2) in G; eapply G; reflexivity.
      * exists uid, bs, w. split; [reflexivity|]. left. split; [apply (live_iff _ _ _ HT); congruence|]. split; [unfold uacked; rewrite HA; congruence|].
        destruct (Z_lt_le_dec (Z.of_nat (length (g_rx (uview_of uid tr)) + length bs)) 8) as [Hlt|]; [exfalso|auto].
        specialize (Rx ltac:(congruence)).
        unfold u_data in G. rewrite Est in G. unfold u_hello, u_receive in G. rewrite Hk in G. destruct S as (_ & S2 & _).
        destruct (1024 <? Z.of_nat (k_head (t_rx c))); cbn [u_then] in G; [rewrite (tr_init uid c _ ltac:(congruence) S2) in G; eapply G; reflexivity|].
        assert (E : (Z.of_nat (k_head (t_rx c) + length (firstn (length (k_pkt (t_rx c)) - k_head (t_rx c)) bs)) <? 8) = true).
        { apply Z.ltb_lt. destruct Rx as (Rx & _). rewrite firstn_length in Rx |- *. lia. }
        rewrite E in G. eapply G; reflexivity.
    + assert (Ha : uacked uid tr) by now apply HA.
      destruct (Z_le_gt_dec (Z.of_nat (length (g_rx (uview_of uid tr)) + match r with RxBytes bs => length bs | _ => 0 end)) 4072) as [Hle|Hgt].
      * exfalso. destruct (data_defined _ _ _ _ _ _ HR Ha Hok Hen Hle) as (v' & os & E). congruence.
      * destruct r as [| |bs].
        1,2: exfalso; unfold u_data in G; rewrite Est in G; unfold u_secured, u_receive in G; rewrite Hk in G; destruct S as (_ & S2 & _);
             destruct (1024 <? Z.of_nat (k_head (t_rx c))); cbn [u_then] in G; try rewrite (fail_eq uid c _ ltac:(congruence) S2) in G; eapply G; reflexivity.
        exists uid, bs, w. split; [reflexivity|]. right. split; [auto|]. lia.
  - exfalso. assert (Hu : inr uid) by (cbn in Hen; destruct (Z.leb_spec 1 uid); [|discriminate]; destruct (Z.ltb_spec uid 33); [lia|discriminate]).
    destruct (err_total uid Hu) as (v' & os & E). congruence.
  - exfalso. assert (Hu : inr uid) by (cbn in Hen; destruct (Z.leb_spec 1 uid); [|discriminate]; destruct (Z.ltb_spec uid 33); [lia|discriminate]).
    destruct (conn_inv _ _ _ (UaTcpRuns.reach_inv _ _ _ HR) Hu) as (c & Hc & HT & En & Eg).
    assert (HL : ulive uid tr).
    { apply (live_iff _ _ _ HT). cbn [tsrv_enabled] in Hen. rewrite Hc in Hen. pose proof HT as [_ _ S _]. intros Est. rewrite Est in S. destruct S as (_ & S2 & _).
      rewrite S2 in Hen. rewrite andb_false_r in Hen. discriminate. }
    destruct (timer_total _ _ _ _ HR HL) as (_ & v' & E). congruence.
Qed.
End Total.

(** * Undefined behaviour *)
(** The messages whose handling ends in undefined behaviour. *)
Definition msg_fault (tr : ytrace) (o : oracle) (m : imsg) : Prop :=
  let ct := cproj tr in
  match m with
  | IFwd KOpn x => (copened ct + ctotal cbad ct < 32)%nat /\
      (dec_open_msg (mkSdu 0 (Z.to_nat (um_len x)) (octets x (o_j o))) = DAbort \/ dec_open_msg (mkSdu 0 (Z.to_nat (um_len x)) (octets x (o_j o))) = DOob)
  | IFwd KClo x => copen (um_chan x) ct /\ acceptable (um_chan x) ct x (o_j o) /\ (close_dec x (o_j o) = DAbort \/ close_dec x (o_j o) = DOob)
  | IFwd KMsg x => copen (um_chan x) ct /\ acceptable (um_chan x) ct x (o_j o) /\ 4064 < um_len x
  | IInd x => parse x (o_j o) = PBad \/
      exists q sid, parse x (o_j o) = PReq q /\ (q_type q = 467 \/ q_type q = 473) /\ named q = Some sid /\ ~ 1 <= sid <= 32
  | _ => False
  end.

Lemma deliver_defined b0 ini y tr m q o keep : yreach b0 ini y tr -> y_q y = m :: q -> oracle_ok o ->
  y_step y (YMsg o keep) = None <-> msg_fault tr o m.
Proof.
  intros HR Eq Ho. apply y_reach_inv in HR. destruct HR as [HT HC HS HN HQ HCh HSe]. rewrite Eq in HQ. apply Forall_cons_iff in HQ as [Hi _].
  unfold y_step. rewrite Eq. unfold y_deliver, y_csrv, y_tsrv, y_svc.
  destruct Ho as (O1 & O2 & O3 & O4).
  destruct m as [[| |] x|c ch|k x|c|x|x|h]; cbn [msg_fault].
  - destruct Hi as (A & B & C & D). destruct (msg_fact _ _ _ HC x (o_j o) (conj A O1) (C ltac:(discriminate))) as (F1 & F2 & F3 & F4).
    destruct (copen_dec (um_chan x) (cproj tr)) as [Hop|Hop].
    2:{ destruct (F1 Hop) as [v' ->]. split; [discriminate|tauto]. }
    destruct (acceptable_dec (um_chan x) (cproj tr) x (o_j o)) as [Ha|Ha].
    2:{ destruct (F2 Hop Ha) as [v' ->]. split; [discriminate|tauto]. }
    destruct (Z_le_gt_dec (um_len x) 4064) as [Hl|Hl].
    + destruct (F3 Hop Ha Hl) as [v' ->]. split; [discriminate|]. intros (_ & _ & X). lia.
    + rewrite F4 by (auto; lia). split; [|auto]. intros _. split; [auto|]. split; [auto|lia].
  - destruct Hi as (A & B & C & D).
    assert (He : cev_ok (CvOpen x (o_j o) (o_rnd o) (o_t1 o) (o_t2 o))) by (split; [exact A|split; [exact O1|split; [exact O2|split; assumption]]]).
    destruct (open_fact _ _ _ HC _ _ _ _ _ He) as [(v' & os & -> & F)|(-> & F1 & F2)].
    + split; [discriminate|]. intros (X1 & X2). exfalso. destruct F as [F|u ? ? ? F|u ? ? ? ? ? ? F]; [lia| |]; destruct X2; congruence.
    + split; auto.
  - destruct Hi as (A & B & C & D). destruct (close_fact _ _ _ HC x (o_j o) (o_t1 o) (conj A (conj O1 O3)) (C ltac:(discriminate))) as (F1 & F2 & F3).
    destruct (copen_dec (um_chan x) (cproj tr)) as [Hop|Hop].
    2:{ destruct (F1 Hop) as [v' ->]. split; [discriminate|tauto]. }
    destruct (acceptable_dec (um_chan x) (cproj tr) x (o_j o)) as [Ha|Ha].
    2:{ destruct (F2 Hop Ha) as [v' ->]. split; [discriminate|tauto]. }
    specialize (F3 Hop Ha). destruct (close_dec x (o_j o)) as [r b| | |].
    + destruct F3 as [v' ->]. split; [discriminate|]. intros (_ & _ & [X|X]); discriminate X.
    + destruct F3 as [v' ->]. split; [discriminate|]. intros (_ & _ & [X|X]); discriminate X.
    + rewrite F3. split; auto.
    + rewrite F3. split; auto.
  - destruct Hi as (A & B). destruct (relind_fact _ _ _ HC c ch (conj (r32 _ A) (r32 _ B)) B) as (F1 & F2).
    destruct (copen_dec ch (cproj tr)) as [Hop|Hop]; [destruct (F1 Hop) as [v' ->]|destruct (F2 Hop) as [v' ->]]; (split; [discriminate|tauto]).
  - destruct Hi as (A & B & _). destruct (msg_total _ _ _ HT k x (o_w o) A B) as (v' & os & ->). split; [discriminate|tauto].
  - destruct (rel_total _ _ _ HT c Hi) as (v' & os & ->). split; [discriminate|tauto].
  - destruct Hi as (A & B & C & D). assert (He : sev_ok (SvInd x (o_j o) (o_t1 o))) by (cbn; auto).
    pose proof (proj1 (running_iff _ _ HS) HN) as [sv Esv]. rewrite Esv in *. rewrite step_ind.
    pose proof (ind_ok sv _ x (o_j o) (o_t1 o) (sreach_inv _ _ HS) He) as F. destruct (parse x (o_j o)) as [qq| | |].
    + destruct F as [(v' & os & -> & _ & _ & F)|(-> & F)].
      * split; [discriminate|]. intros [X|(q2 & sid & X & Y & Z & W)]; [discriminate X|]. injection X as <-. exfalso. apply F.
        destruct qq; cbn in Y; try lia; cbn; eauto.
      * split; [|auto]. intros _. right. destruct qq; cbn [stray] in F; try contradiction.
        -- destruct F as (sid & F1 & F2). eexists _, sid. split; [reflexivity|]. cbn. auto.
        -- destruct F as (sid & F1 & F2). eexists _, sid. split; [reflexivity|]. cbn. auto.
        -- exfalso. tauto.
    + destruct F as (-> & _). split; [discriminate|]. intros [X|(q2 & sid & X & _)]; discriminate X.
    + destruct F as (-> & _). split; [discriminate|]. intros [X|(q2 & sid & X & _)]; discriminate X.
    + rewrite F. split; auto.
  - destruct Hi as (A & B & C & D). destruct (send_fact _ _ _ HC x A C) as (F1 & F2 & _).
    destruct (copen_dec (e_chan (em_hdr x)) (cproj tr)) as [Hop|Hop].
    2:{ destruct (F1 (or_introl Hop)) as [v' ->]. split; [discriminate|tauto]. }
    destruct (sendable_dec (e_chan (em_hdr x)) (cproj tr) x) as [Ha|Ha].
    2:{ destruct (F1 (or_intror Ha)) as [v' ->]. split; [discriminate|tauto]. }
    destruct (F2 Hop Ha ltac:(lia)) as [v' ->]. split; [discriminate|tauto].
  - destruct Hi as (A & B & C & D). destruct (assoc_fact _ _ _ HC h A C) as [v' ->]. split; [discriminate|tauto].
Qed.

Lemma net_undefined b0 ini y tr e keep : yreach b0 ini y tr -> tev_ok e -> y_enabled y (YNet e keep) = true ->
  y_step y (YNet e keep) = None -> net_fault (tproj tr) e.
Proof.
  intros HR Hok Hen Hs. apply y_reach_inv in HR. destruct HR as [HT _ _ _ _ _ _]. destruct (net_ok _ _ _ Hen) as (A & _ & B).
  eapply net_defined; eauto. cbn [y_step] in Hs. unfold y_tsrv in Hs. destruct (tsrv_step (y_t y) e) as [[v os]|]; [discriminate Hs|reflexivity].
Qed.

(** * Requests and answers *)
Lemma sub_refl {A} (l : list A) : sub l l. Proof. induction l; [constructor|now apply sub_take]. Qed.
Lemma sub_nil_l {A} (l : list A) : sub [] l. Proof. induction l; constructor; auto. Qed.
Lemma sub_app {A} (a b c d : list A) : sub a b -> sub c d -> sub (a ++ c) (b ++ d).
Proof. intros H1 H2. induction H1; cbn; auto; [now apply sub_skip|now apply sub_take]. Qed.
Lemma sub_trans {A} (a b c : list A) : sub a b -> sub b c -> sub a c.
Proof.
  intros H1 H2. revert a H1. induction H2 as [|x l k H IH|x l k H IH]; intros a H1; [auto|apply sub_skip; auto|].
  inversion H1; subst; [apply sub_skip|apply sub_take]; auto.
Qed.
Lemma sub_flat {A B} (f : A -> list B) l k : sub l k -> sub (flat_map f l) (flat_map f k).
Proof. induction 1; cbn [flat_map]; [constructor| |apply sub_app; auto using sub_refl]. change (flat_map f l) with ([] ++ flat_map f l). apply sub_app; auto using sub_nil_l. Qed.
Lemma kept_sub keep ms : sub (kept keep ms) ms.
Proof.
  revert keep. induction ms as [|m r IH]; intros keep; [destruct keep; constructor|]. destruct keep as [|[|] k]; cbn [kept]; [apply sub_refl|apply sub_take; auto|apply sub_skip; auto].
Qed.

Definition key : Type := Z * Z * Z.
Definition tx_key (m : imsg) : list key := match m with ITx KMsg x => [(um_conn x, um_chan x, le_at 8 (firstn (Z.to_nat (um_len x)) (um_data x)))] | _ => [] end.
Definition send_key (m : imsg) : list key := match m with ISend x => [(e_conn (em_hdr x), e_chan (em_hdr x), e_req (em_hdr x))] | _ => [] end.
Definition ind_key (m : imsg) : list key := match m with IInd x => [(e_conn (em_hdr x), e_chan (em_hdr x), e_req (em_hdr x))] | _ => [] end.
(** The requests under way, those nearest to their answer first. *)
Definition pending (q : list imsg) : list key := flat_map tx_key q ++ flat_map send_key q ++ flat_map ind_key q.

Lemma pending_plain q ms keep : flat_map tx_key ms = [] -> flat_map send_key ms = [] -> flat_map ind_key ms = [] -> sub (pending (q ++ kept keep ms)) (pending q).
Proof.
  intros A B C. unfold pending. rewrite !flat_map_app. pose proof (kept_sub keep ms) as K.
  apply (sub_flat tx_key) in K as K1. apply (sub_flat send_key) in K as K2. apply (sub_flat ind_key) in K as K3. rewrite A in K1. rewrite B in K2. rewrite C in K3.
  inversion K1. inversion K2. inversion K3. rewrite !app_nil_r. apply sub_refl.
Qed.
Lemma t_msgs_keys os : flat_map tx_key (t_msgs os) = [] /\ flat_map send_key (t_msgs os) = [] /\ flat_map ind_key (t_msgs os) = [].
Proof.
  unfold t_msgs. induction os as [|o os (A & B & C)]; [auto|]. cbn [flat_map]. rewrite !flat_map_app, A, B, C. destruct o; auto.
Qed.

Lemma le_at_app n a b : length a = n -> le_at n (a ++ b) = le_at 0 b.
Proof. intros H. unfold le_at. rewrite skipn_app, skipn_all2, H, Nat.sub_diag by lia. reflexivity. Qed.
Lemma le_at_here z b : is_u32 z -> le_at 0 (le_bytes 4 z ++ b) = z.
Proof.
  intros H. unfold le_at. cbn [skipn]. rewrite firstn_app, le_bytes_length, Nat.sub_diag, firstn_O, app_nil_r.
  rewrite firstn_all2 by (rewrite le_bytes_length; lia). rewrite le_val_bytes. unfold is_u32 in H. rewrite Z.mod_small; [reflexivity|]. change (256 ^ Z.of_nat 4) with 4294967296. lia.
Qed.

Lemma packet_key e k m n : umsg_ok m -> answer_of (RT e [UTx (um_conn m) (packet_of k m) n]) = tx_key (ITx k m).
Proof.
  intros (_ & Hc & _). destruct k; try reflexivity. unfold answer_of, packet_of, tx_key. cbn [kind_octets app flat_map].
  set (ck := match um_chunk m with 1 => 67 | 2 => 70 | 3 => 65 | _ => 0 end). set (d := firstn _ _).
  change (ck :: le_bytes 4 (12 + um_len m) ++ le_bytes 4 (um_chan m) ++ d) with ((ck :: le_bytes 4 (12 + um_len m)) ++ le_bytes 4 (um_chan m) ++ d).
  rewrite le_at_app by reflexivity. rewrite le_at_here by auto.
  assert (E : le_at 17 ((ck :: le_bytes 4 (12 + um_len m)) ++ le_bytes 4 (um_chan m) ++ d) = le_at 8 d).
  { change 17%nat with (9 + 8)%nat. rewrite <- le_at_skip. reflexivity. }
  rewrite E. reflexivity.
Qed.

(** What is written is the acknowledge, or the message just taken from the queue. *)
Lemma answer_net b0 v tr e v' os : ureach b0 v tr -> tev_ok e -> tsrv_enabled v e = true -> tsrv_step v e = Some (v', os) ->
  match e with EvMsg _ _ _ => False | _ => True end -> answer_of (RT e os) = [].
Proof.
  intros HR Hok Hen Hs Hne. unfold answer_of.
  assert (G : forall o, In o os -> match o with UTx uid (77 :: 83 :: 71 :: r) _ => [(uid, le_at 5 r, le_at 17 r)] | _ => [] end = []).
  { intros o Ho. destruct o as [uid pkt n| | | | | |]; try reflexivity.
    destruct (tx_facts _ _ _ _ _ _ HR Hok Hen Hs _ _ _ Ho) as (_ & [(-> & _)|(k & m & w & -> & _)]); [reflexivity|contradiction]. }
  clear - G. induction os as [|o os IH]; [reflexivity|]. cbn [flat_map]. rewrite (G o (or_introl eq_refl)), IH; auto. intros x Hx. apply G. now right.
Qed.
Lemma answer_msg b0 v tr k m w v' os : ureach b0 v tr -> umsg_ok m -> tsrv_step v (EvMsg k m w) = Some (v', os) ->
  sub (answer_of (RT (EvMsg k m w) os)) (tx_key (ITx k m)).
Proof.
  intros HR Hok Hs. destruct (step_cases b0 v tr (EvMsg k m w) v' os HR Hok eq_refl Hs) as [(u & c & Hu & Ec & HT & <- & Hc)|(b1 & b2 & b3 & E & _)]; [|discriminate E].
  destruct Hc as [(_ & ->)|(_ & [(n & _ & -> & _)| ->])].
  - apply sub_nil_l.
  - rewrite packet_key by auto. apply sub_refl.
  - replace (answer_of _) with (@nil (Z * Z * Z)); [apply sub_nil_l|]. unfold closing. destruct (match k with KOpn => _ | _ => _ end); reflexivity.
Qed.

Lemma c_keys ini v tr e v' os : creach ini v tr -> cev_ok e -> csrv_step v e = Some (v', os) ->
  flat_map send_key (c_msgs os) = [] /\
  sub (flat_map tx_key (c_msgs os)) (match e with CvSend m => [(e_conn (em_hdr m), e_chan (em_hdr m), e_req (em_hdr m))] | _ => [] end) /\
  flat_map ind_key (c_msgs os) = request_of (RC e os).
Proof.
  intros HR He Hs. pose proof (step_fact _ _ _ _ _ _ HR He Hs) as F.
  destruct F as [m0 j rnd t1 t2 os Hop|e t Ec Ht Hn|m0 j e Hor Ht Ho Hac|m0 j Ht Ho Hac Hl|m0 Ht|m0 t Et Ht Ho Hsd Hl|m0 j now t r b Et Ht Ho Hac Hcd|m0 j now Ht Ho Hac Hcd|h Ht Ho|conn ch Ht Ho].
  - destruct Hop; (split; [reflexivity|split; [apply sub_refl|reflexivity]]).
  - split; [reflexivity|]. split; [apply sub_nil_l|]. destruct e; reflexivity.
  - split; [reflexivity|]. split; [apply sub_nil_l|]. destruct Hor as [->|(now & ->)]; reflexivity.
  - split; [reflexivity|]. split; [apply sub_nil_l|]. reflexivity.
  - split; [reflexivity|]. split; [apply sub_nil_l|]. reflexivity.
  - split; [reflexivity|]. split; [|reflexivity].
    assert (E : flat_map tx_key (c_msgs [CTx KMsg (rsp_of (e_conn (em_hdr m0)) t (msg_rsp (ctoken t tr) ((cstart t tr + Z.of_nat (csent t tr)) mod 4294967296) (e_req (em_hdr m0)) (body_of m0)))])
      = [(e_conn (em_hdr m0), t, e_req (em_hdr m0))]).
    { cbn [c_msgs flat_map tx_key app]. unfold rsp_of. cbn [um_conn um_chan um_len um_data]. rewrite Nat2Z.id, firstn_all. f_equal. f_equal.
      unfold msg_rsp. rewrite !app_assoc, <- (app_assoc _ (le_bytes 4 (e_req _))). rewrite le_at_app by reflexivity. apply le_at_here. apply He. }
    rewrite E, Et. apply sub_refl.
  - split; [reflexivity|]. split; [apply sub_nil_l|]. reflexivity.
  - split; [reflexivity|]. split; [apply sub_nil_l|]. reflexivity.
  - split; [reflexivity|]. split; [apply sub_nil_l|]. reflexivity.
  - split; [reflexivity|]. split; [apply sub_nil_l|]. reflexivity.
Qed.
Lemma s_keys tr h now q os : served tr h now q os ->
  flat_map tx_key (s_msgs os) = [] /\ flat_map ind_key (s_msgs os) = [] /\ sub (flat_map send_key (s_msgs os)) [(e_conn h, e_chan h, e_req h)].
Proof. intros H. destruct H; (split; [reflexivity|split; [reflexivity|]]); first [apply sub_nil_l|apply sub_refl]. Qed.

Lemma kept_key f keep ms (X : list key) : sub (flat_map f ms) X -> sub (flat_map f (kept keep ms)) X.
Proof. intros H. eapply sub_trans; [|exact H]. apply sub_flat, kept_sub. Qed.
Lemma answers_snoc tr r : answers (tr ++ [r]) = answers tr ++ answer_of r.
Proof. unfold answers. rewrite flat_map_app. cbn [flat_map]. now rewrite app_nil_r. Qed.
Lemma requests_snoc tr r : requests (tr ++ [r]) = requests tr ++ request_of r.
Proof. unfold requests. rewrite flat_map_app. cbn [flat_map]. now rewrite app_nil_r. Qed.
Lemma sub_nil_inv {A} (l : list A) : sub l [] -> l = []. Proof. intros H. now inversion H. Qed.


Lemma answers_step b0 ini y tr e y' r : YInv b0 ini y tr -> yev_ok e -> y_enabled y e = true -> y_step y e = Some (y', r) ->
  sub (answer_of r ++ pending (y_q y')) (pending (y_q y) ++ request_of r).
Proof.
  intros [HT HC HS HN HQ HCh HSe] Hev Hen Hs.
  destruct (y_cases _ _ _ _ Hen Hs) as [e keep v os He Hst ->|k m o keep q v os Eq Hst ->|c o keep q v os Eq Hst ->|m e o keep q v os Eq Hm Hst ->|m o keep q v os Eq Hst ->];
    cbn [y_q].
  - cbn [request_of]. rewrite ?app_nil_r. destruct (net_ok _ _ _ He) as (He1 & He2 & He3). rewrite (answer_net _ _ _ _ _ _ HT Hev He1 Hst) by (destruct e; auto).
    destruct (t_msgs_keys os) as (A & B & C). now apply pending_plain.
  - cbn [request_of]. rewrite ?app_nil_r. rewrite Eq in HQ |- *. apply Forall_cons_iff in HQ as [(M1 & M2) HQ].
    change (pending (ITx k m :: q)) with ((tx_key (ITx k m) ++ flat_map tx_key q) ++ flat_map send_key q ++ flat_map ind_key q). rewrite <- app_assoc.
    apply sub_app; [eapply answer_msg; eauto|]. destruct (t_msgs_keys os) as (A & B & C). now apply (pending_plain q).
  - cbn [request_of]. rewrite ?app_nil_r. rewrite Eq in HQ |- *. apply Forall_cons_iff in HQ as [Hc HQ]. assert (Hu : tev_ok (EvRelease c)) by (cbn in *; auto using r32).
    rewrite (answer_net _ _ _ _ _ _ HT Hu eq_refl Hst) by exact I. destruct (t_msgs_keys os) as (A & B & C). now apply (pending_plain q).
  - rewrite Eq in HQ |- *. apply Forall_cons_iff in HQ as [Hi HQ]. destruct (c_event_ok _ _ _ Hev Hi Hm) as [Hok Hfq].
    destruct (c_keys _ _ _ _ _ _ HC Hok Hst) as (A & B & C).
    assert (T : sub (flat_map tx_key (c_msgs os)) (send_key m)). { destruct m as [[| |] x|? ?|? ?|?|?|x|?]; try contradiction; subst e; exact B. }
    assert (E : pending (m :: q) = flat_map tx_key q ++ (send_key m ++ flat_map send_key q) ++ flat_map ind_key q).
    { destruct m as [[| |] x|? ?|? ?|?|?|x|?]; try contradiction; reflexivity. }
    rewrite E. unfold pending. rewrite !flat_map_app, <- !app_assoc. cbn [answer_of app].
    apply sub_app; [apply sub_refl|]. apply sub_app; [now apply kept_key|]. apply sub_app; [apply sub_refl|].
    rewrite <- C. change (flat_map ind_key q ++ flat_map ind_key (c_msgs os)) with ([] ++ flat_map ind_key q ++ flat_map ind_key (c_msgs os)).
    apply sub_app; [rewrite <- A; apply kept_key; rewrite A; apply sub_refl|]. apply sub_app; [apply sub_refl|]. apply kept_key, sub_refl.
  - cbn [request_of]. rewrite ?app_nil_r. rewrite Eq in HQ |- *. apply Forall_cons_iff in HQ as [Hi HQ]. destruct Hev as (O1 & O2 & O3 & O4). destruct Hi as (I1 & I2).
    assert (Hok : sev_ok (SvInd m (o_j o) (o_t1 o))) by (cbn; auto).
    assert (K : flat_map tx_key (s_msgs os) = [] /\ flat_map ind_key (s_msgs os) = [] /\ sub (flat_map send_key (s_msgs os)) (ind_key (IInd m))).
    { destruct (ind_served _ _ _ _ _ _ _ HS Hok Hst) as [(E & _)|(_ & [(qq & _ & Hsv & _)|[(_ & ->)|(_ & ->)]])].
      - congruence. - eapply s_keys; eauto. - split; [reflexivity|split; [reflexivity|apply sub_nil_l]]. - split; [reflexivity|split; [reflexivity|apply sub_nil_l]]. }
    destruct K as (A & B & C). cbn [answer_of app].
    change (pending (IInd m :: q)) with (flat_map tx_key q ++ flat_map send_key q ++ ind_key (IInd m) ++ flat_map ind_key q).
    unfold pending. rewrite !flat_map_app, <- !app_assoc. apply sub_app; [apply sub_refl|].
    change (flat_map send_key q ++ ind_key (IInd m) ++ flat_map ind_key q) with ([] ++ flat_map send_key q ++ ind_key (IInd m) ++ flat_map ind_key q).
    apply sub_app; [rewrite <- A; apply kept_key; rewrite A; apply sub_refl|]. apply sub_app; [apply sub_refl|]. apply sub_app; [now apply kept_key|].
    rewrite <- (app_nil_r (flat_map ind_key q)) at 2. apply sub_app; [apply sub_refl|]. apply kept_key. rewrite B. apply sub_refl.
Qed.

(** * Histories that go on *)
Lemma path_reach b0 ini y tr tr2 y2 : yreach b0 ini y tr -> ypath y tr2 y2 -> yreach b0 ini y2 (tr ++ tr2).
Proof. intros H P. induction P as [|tr2 e y1 y2 r P IH Hev Hen Hs]; [now rewrite app_nil_r|]. rewrite app_assoc. econstructor; eauto. Qed.
Lemma reach_path b0 ini y tr : yreach b0 ini y tr -> exists y0, yreach b0 ini y0 [] /\ y_q y0 = [] /\ ypath y0 tr y.
Proof.
  induction 1 as [y Hb Hi Hn|y tr e y' r H IH Hev Hen Hs].
  - exists y. split; [now constructor|]. split; [|constructor]. now apply y_new_parts in Hn as (t & c & s & _ & _ & _ & ->).
  - destruct IH as (y0 & R & Q & P). exists y0. split; [auto|]. split; [auto|]. econstructor; eauto.
Qed.

Lemma answers_path b0 ini y tr tr2 y2 : yreach b0 ini y tr -> ypath y tr2 y2 ->
  sub (answers tr2 ++ pending (y_q y2)) (pending (y_q y) ++ requests tr2).
Proof.
  intros HR P. induction P as [|tr2 e y1 y2 r P IH Hev Hen Hs]; [cbn [answers requests flat_map app]; rewrite app_nil_r; apply sub_refl|].
  pose proof (y_reach_inv _ _ _ _ (path_reach _ _ _ _ _ _ HR P)) as HI. pose proof (answers_step _ _ _ _ _ _ _ HI Hev Hen Hs) as S.
  rewrite answers_snoc, requests_snoc, <- app_assoc. eapply sub_trans; [apply sub_app; [apply sub_refl|exact S]|].
  rewrite !app_assoc. apply sub_app; [exact IH|apply sub_refl].
Qed.

(** Accepted requests are packets that their connection forwarded. *)
Definition fwd_key (m : imsg) : list (Z * Z) := match m with IFwd KMsg x => [(um_conn x, um_chan x)] | _ => [] end.
Lemma t_fwds os : flat_map fwd_key (t_msgs os) = flat_map (fun o => match o with UFwd KMsg uid ch _ _ _ => [(uid, ch)] | _ => [] end) os.
Proof. unfold t_msgs. induction os as [|o os IH]; [reflexivity|]. cbn [flat_map]. rewrite flat_map_app, IH. f_equal. destruct o; try reflexivity. destruct k; reflexivity. Qed.
Lemma no_fwds ms keep : (forall m, In m ms -> match m with IFwd _ _ => False | _ => True end) -> flat_map fwd_key (kept keep ms) = [].
Proof.
  intros H. pose proof (kept_in keep ms) as K. induction (kept keep ms) as [|x l IH]; [reflexivity|]. cbn [flat_map].
  rewrite IH by (intros; apply K; now right). specialize (H x (K x (or_introl eq_refl))). destruct x as [[| |] ?|? ?|? ?|?|?|?|?]; try reflexivity; contradiction.
Qed.
Lemma requests_step y e y' r : y_enabled y e = true -> y_step y e = Some (y', r) ->
  sub (map fst (request_of r) ++ flat_map fwd_key (y_q y')) (flat_map fwd_key (y_q y) ++ forward_of r).
Proof.
  intros Hen Hs.
  assert (T : forall q keep os e, sub (flat_map fwd_key (q ++ kept keep (t_msgs os))) (flat_map fwd_key q ++ forward_of (RT e os))).
  { intros q keep os e0. rewrite flat_map_app. apply sub_app; [apply sub_refl|]. cbn [forward_of]. rewrite <- t_fwds. apply sub_flat, kept_sub. }
  pose proof (y_cases _ _ _ _ Hen Hs) as F. clear Hs Hen. destruct F as [e keep v os He Hst ->|k m o keep q v os Eq Hst ->|c o keep q v os Eq Hst ->|m e o keep q v os Eq Hm Hst ->|m o keep q v os Eq Hst ->];
    cbn [y_q].
  - apply T.
  - rewrite Eq. apply (T q).
  - rewrite Eq. apply (T q).
  - rewrite Eq, flat_map_app, no_fwds.
    + cbn [forward_of flat_map]. rewrite !app_nil_r. apply sub_app; [|apply sub_refl].
      destruct m as [[| |] x|? ?|? ?|?|?|x|?]; try contradiction; subst e; try apply sub_refl.
      cbn [request_of]. destruct os as [|[| | | |] [|? ?]]; first [apply sub_nil_l|apply sub_refl].
    + intros x Hx. apply c_in in Hx as [(k & z & _ & ->)|[(z & _ & ->)|(z & _ & ->)]]; exact I.
  - rewrite Eq, flat_map_app, no_fwds.
    + cbn [request_of map forward_of flat_map fwd_key app]. rewrite !app_nil_r. apply sub_refl.
    + intros x Hx. apply s_in in Hx as [(z & _ & ->)|(z & _ & ->)]; exact I.
Qed.
Lemma requests_path y tr2 y2 : ypath y tr2 y2 ->
  sub (map fst (requests tr2) ++ flat_map fwd_key (y_q y2)) (flat_map fwd_key (y_q y) ++ forwards tr2).
Proof.
  intros P. induction P as [|tr2 e y1 y2 r P IH Hev Hen Hs]; [cbn [requests forwards flat_map app map]; rewrite app_nil_r; apply sub_refl|].
  pose proof (requests_step _ _ _ _ Hen Hs) as S.
  assert (E : forwards (tr2 ++ [r]) = forwards tr2 ++ forward_of r) by (unfold forwards; rewrite flat_map_app; cbn [flat_map]; now rewrite app_nil_r).
  rewrite requests_snoc, E, map_app, <- app_assoc. eapply sub_trans; [apply sub_app; [apply sub_refl|exact S]|].
  rewrite !app_assoc. apply sub_app; [exact IH|apply sub_refl].
Qed.

(** * Channels nobody has *)
Lemma free_cause ini v tr e v' os ch : creach ini v tr -> cev_ok e -> csrv_step v e = Some (v', os) -> In (CFree ch) os ->
  copen ch tr /\ ((exists m j, e = CvMsg m j /\ um_chan m = ch) \/ (exists m j now, e = CvClose m j now /\ um_chan m = ch) \/ exists c, e = CvRelInd c ch).
Proof.
  intros HR He Hs Hi. pose proof (step_fact _ _ _ _ _ _ HR He Hs) as F.
  destruct F as [m0 j rnd t1 t2 os Hop|e t Ec Ht Hn|m0 j e Hor Ht Ho Hac|m0 j Ht Ho Hac Hl|m0 Ht|m0 t Et Ht Ho Hsd Hl|m0 j now t r b Et Ht Ho Hac Hcd|m0 j now Ht Ho Hac Hcd|h Ht Ho|conn ch0 Ht Ho];
    cbn in Hi; try solve [intuition discriminate].
  - destruct Hop; cbn in Hi; intuition discriminate.
  - destruct Hi as [Hi|[Hi|[]]]; [discriminate|]. injection Hi as <-. split; [auto|]. destruct Hor as [->|(now & ->)]; eauto 8.
  - destruct Hi as [Hi|[Hi|[Hi|[]]]]; [discriminate|discriminate|]. injection Hi as <-. split; [auto|]. right. left. exists m0, j, now. auto.
  - destruct Hi as [Hi|[]]. injection Hi as <-. split; [auto|]. right. right. eauto.
Qed.
Lemma opn_cause ini v tr e v' os m : creach ini v tr -> cev_ok e -> csrv_step v e = Some (v', os) -> In (CTx KOpn m) os ->
  ~ copen (um_chan m) tr /\ 1 <= um_chan m <= 32 /\ os = [CTx KOpn m] /\ exists x j rnd t1 t2, e = CvOpen x j rnd t1 t2 /\ um_conn m = um_conn x.
Proof.
  intros HR He Hs Hi. pose proof (step_fact _ _ _ _ _ _ HR He Hs) as F.
  destruct F as [m0 j rnd t1 t2 os Hop|e t Ec Ht Hn|m0 j e Hor Ht Ho Hac|m0 j Ht Ho Hac Hl|m0 Ht|m0 t Et Ht Ho Hsd Hl|m0 j now t r b Et Ht Ho Hac Hcd|m0 j now Ht Ho Hac Hcd|h Ht Ho|conn ch0 Ht Ho];
    cbn in Hi; try solve [intuition discriminate].
  destruct Hop as [E|u A B C D|u q r b A B C D]; cbn in Hi; try solve [intuition discriminate].
  destruct Hi as [Hi|[]]. injection Hi as <-. split; [exact C|]. split; [exact B|]. split; [reflexivity|]. eexists _, _, _, _, _. split; reflexivity.
Qed.

Lemma exists_app {A} (P : A -> Prop) a b : Exists P (a ++ b) <-> Exists P a \/ Exists P b. Proof. apply Exists_app. Qed.
Lemma kept_exists P keep ms : Exists P (kept keep ms) -> exists m, In m ms /\ P m.
Proof. intros H. apply Exists_exists in H as (m & Hi & Hp). exists m. split; [now apply kept_in in Hi|auto]. Qed.

(** How a connection can come by a channel, and what the transport says about channels. *)
Lemma t_chan_from b0 v tr e v' os ch : ureach b0 v tr -> tev_ok e -> tsrv_enabled v e = true -> tsrv_step v e = Some (v', os) ->
  (exists uid, uchan uid (tr ++ [(e, os)]) = Some ch) \/ Exists (tells ch) (t_msgs os) \/ Exists (uses ch) (t_msgs os) ->
  (exists uid, uchan uid tr = Some ch) \/ exists m w, e = EvMsg KOpn m w /\ um_chan m = ch.
Proof.
  intros HR Hok Hen Hs [(uid & H)|[H|H]].
  - rewrite uchan_next in H. destruct (existsb (is_ufree uid) os); [discriminate|]. destruct e as [? ? ?|? ? ?|?|?|[| |] m w|?]; eauto.
    destruct ((um_conn m =? uid) && g_acked (uview_of uid tr)); [|eauto]. injection H as <-. eauto.
  - apply Exists_exists in H as (x & Hx & Ht). apply t_in in Hx as [(k & uid & c & ck & len & d & Ho & ->)|(uid & c & Ho & ->)]; [destruct Ht|]. cbn in Ht. subst c.
    destruct (relind_facts _ _ _ _ _ _ _ _ HR Hok Hen Hs Ho) as (_ & _ & _ & [E|(m & w & E & _ & E2)]); eauto.
  - apply Exists_exists in H as (x & Hx & Ht). apply t_in in Hx as [(k & uid & c & ck & len & d & Ho & ->)|(uid & c & Ho & ->)]; [|destruct Ht].
    destruct (fwd_facts _ _ _ _ _ _ HR Hok Hen Hs _ _ _ _ _ _ Ho) as (_ & _ & G & _). destruct k; cbn in Ht; try contradiction; subst c; left; exists uid; apply G; discriminate.
Qed.

Lemma orphan_step b0 ini y tr e y' r ch : YInv b0 ini y tr -> yev_ok e -> y_enabled y e = true -> y_step y e = Some (y', r) ->
  orphan ch y tr -> orphan ch y' (tr ++ [r]).
Proof.
  intros [HT HC HS HN HQ HCh HSe] Hev Hen Hs (Ho & Hn & Hu).
  assert (Hn1 : forall uid, uchan uid (tproj tr) <> Some ch) by (intros uid E; apply Hn; left; eauto).
  assert (Hn2 : ~ Exists (tells ch) (y_q y)) by (intros E; apply Hn; now right). clear Hn.
  assert (G : forall e os v q keep, tev_ok e -> tsrv_enabled (y_t y) e = true -> tsrv_step (y_t y) e = Some (v, os) ->
    (forall m w, e = EvMsg KOpn m w -> um_chan m <> ch) -> ~ Exists (tells ch) q -> ~ Exists (uses ch) q ->
    orphan ch (mkY v (y_c y) (y_s y) (q ++ kept keep (t_msgs os))) (tr ++ [RT e os])).
  { intros e0 os v q keep A B C D E F. pose proof (t_chan_from _ _ _ _ _ _ ch HT A B C) as X.
    assert (N : ~ ((exists uid, uchan uid (tproj tr) = Some ch) \/ exists m w, e0 = EvMsg KOpn m w /\ um_chan m = ch)).
    { intros [(uid & Z)|(m & w & Z & W)]; [exact (Hn1 uid Z)|exact (D m w Z W)]. }
    unfold orphan, owned. rewrite tproj_snoc, cproj_snoc, app_nil_r. cbn [y_q]. split; [exact Ho|]. split.
    - intros [Z|Z]; [tauto|]. apply Exists_app in Z as [Z|Z]; [tauto|]. apply kept_exists in Z as (m & Z1 & Z2). apply N, X. right. left. apply Exists_exists. eauto.
    - intros Z. apply Exists_app in Z as [Z|Z]; [tauto|]. apply kept_exists in Z as (m & Z1 & Z2). apply N, X. right. right. apply Exists_exists. eauto. }
  pose proof (y_cases _ _ _ _ Hen Hs) as F.
  destruct F as [e keep v os He Hst ->|k m o keep q v os Eq Hst ->|c o keep q v os Eq Hst ->|m e o keep q v os Eq Hm Hst ->|m o keep q v os Eq Hst ->].
  - destruct (net_ok _ _ _ He) as (A & _ & B). apply G; auto. intros m w ->. contradiction.
  - rewrite Eq in HQ, Hn2, Hu. apply Forall_cons_iff in HQ as [(M1 & _) HQ].
    apply G; auto. intros m0 w E Hc. injection E as -> -> _. apply Hn2. now left.
  - rewrite Eq in HQ, Hn2, Hu. apply Forall_cons_iff in HQ as [Hc HQ].
    apply G; auto; [cbn in *; auto using r32|]. intros m0 w E. discriminate E.
  - rewrite Eq in HQ, Hn2, Hu. apply Forall_cons_iff in HQ as [Hi HQ]. destruct (c_event_ok _ _ _ Hev Hi Hm) as [Hok Hfq].
    assert (Nf : ~ In (CFree ch) os).
    { intros Hf. destruct (free_cause _ _ _ _ _ _ _ HC Hok Hst Hf) as (_ & [(x & j & -> & E)|[(x & j & now & -> & E)|(c & ->)]]).
      - apply Hu. left. destruct m as [[| |] ?|? ?|? ?|?|?|?|?]; try discriminate Hm; try contradiction. injection Hm as -> _. exact E.
      - apply Hu. left. destruct m as [[| |] ?|? ?|? ?|?|?|?|?]; try discriminate Hm; try contradiction. injection Hm as -> _ _. exact E.
      - apply Hn2. left. destruct m as [[| |] ?|? ?|? ?|?|?|?|?]; try discriminate Hm; try contradiction. injection Hm as -> ->. reflexivity. }
    unfold orphan, owned. rewrite tproj_snoc, cproj_snoc, app_nil_r. cbn [y_q]. split; [|split].
    + now destruct (opening_step _ _ _ _ _ _ _ HC Hok Hst Ho Nf) as (Z & _).
    + intros [(uid & Z)|Z]; [exact (Hn1 uid Z)|]. apply Exists_app in Z as [Z|Z]; [apply Hn2; now right|]. apply kept_exists in Z as (x & Z1 & Z2).
      apply c_in in Z1 as [(k & z & Z1 & ->)|[(z & _ & ->)|(z & _ & ->)]]; [|contradiction|contradiction]. destruct k; cbn in Z2; try contradiction.
      destruct (opn_cause _ _ _ _ _ _ _ HC Hok Hst Z1) as (N & _). congruence.
    + intros Z. apply Exists_app in Z as [Z|Z]; [apply Hu; now right|]. apply kept_exists in Z as (x & Z1 & Z2).
      apply c_in in Z1 as [(k & z & Z1 & ->)|[(z & _ & ->)|(z & _ & ->)]]; contradiction.
  - rewrite Eq in HQ, Hn2, Hu. unfold orphan, owned. rewrite tproj_snoc, cproj_snoc, !app_nil_r. cbn [y_q]. split; [exact Ho|]. split.
    + intros [(uid & Z)|Z]; [exact (Hn1 uid Z)|]. apply Exists_app in Z as [Z|Z]; [apply Hn2; now right|]. apply kept_exists in Z as (x & Z1 & Z2).
      apply s_in in Z1 as [(z & _ & ->)|(z & _ & ->)]; contradiction.
    + intros Z. apply Exists_app in Z as [Z|Z]; [apply Hu; now right|]. apply kept_exists in Z as (x & Z1 & Z2).
      apply s_in in Z1 as [(z & _ & ->)|(z & _ & ->)]; contradiction.
Qed.
Lemma orphan_forever b0 ini y tr tr2 y2 ch : yreach b0 ini y tr -> orphan ch y tr -> ypath y tr2 y2 -> orphan ch y2 (tr ++ tr2).
Proof.
  intros HR Ho P. induction P as [|tr2 e y1 y2 r P IH Hev Hen Hs]; [now rewrite app_nil_r|]. rewrite app_assoc.
  eapply orphan_step; eauto. eapply y_reach_inv, path_reach; eauto.
Qed.
(** With every channel an orphan, no client gets a channel any more. *)
Lemma all_orphans b0 ini y tr tr2 y2 o keep m q y3 r : yreach b0 ini y tr -> (forall ch, 1 <= ch <= 32 -> orphan ch y tr) -> ypath y tr2 y2 ->
  oracle_ok o -> y_q y2 = IFwd KOpn m :: q -> y_step y2 (YMsg o keep) = Some (y3, r) -> y_q y3 = q /\ exists e, r = RC e [].
Proof.
  intros HR Ho P Hev Eq Hs. pose proof (y_reach_inv _ _ _ _ (path_reach _ _ _ _ _ _ HR P)) as [HT HC HS HN HQ HCh HSe].
  assert (Hen : y_enabled y2 (YMsg o keep) = true) by (cbn; now rewrite Eq).
  pose proof (y_cases _ _ _ _ Hen Hs) as F. inversion F as [|? ? ? ? ? ? ? E1|? ? ? ? ? ? E1|x e o' keep' q' v os E1 Hm Hst E2 E3 E4|? ? ? ? ? ? E1]; clear F; subst; rewrite Eq in E1; try discriminate E1.
  injection E1 as <- <-. cbn in Hm. subst e. rewrite Eq in HQ. apply Forall_cons_iff in HQ as [Hi _].
  destruct (c_event_ok (IFwd KOpn m) _ _ Hev Hi eq_refl) as [Hok _].
  pose proof (step_fact _ _ _ _ _ _ HC Hok Hst) as F.
  assert (N : os = []).
  { inversion F as [? ? ? ? ? ? Hop A B| | | | | | | | |]; subst; [|reflexivity|exfalso; match goal with H : _ \/ _ |- _ => destruct H as [H|[? H]]; discriminate H end].
    destruct Hop as [E|u A B C D|u qq rr b A B C D]; [reflexivity| |]; exfalso; apply C; apply (orphan_forever _ _ _ _ _ _ u HR (Ho u B) P). }
  subst os. cbn [y_q c_msgs flat_map kept]. destruct keep; cbn [kept]; rewrite app_nil_r; eauto.
Qed.

(** * How a channel loses its connection *)
Lemma chan_acked b0 v tr uid ch : ureach b0 v tr -> uchan uid tr = Some ch -> 1 <= uid <= 32 /\ uacked uid tr.
Proof.
  intros HR E. assert (D : 1 <= uid <= 32 \/ ~ 1 <= uid <= 32) by lia. destruct D as [Hu|Hu].
  - split; [auto|]. destruct (conn_inv _ _ _ (UaTcpRuns.reach_inv _ _ _ HR) Hu) as (c & Hc & HT & _). unfold uchan in E.
    destruct HT as [_ _ S _]. unfold uacked. destruct (t_st c); [destruct S as (_ & _ & _ & S & _); congruence|destruct S as (_ & _ & _ & _ & S & _); congruence|tauto].
  - exfalso. assert (G : uchan uid tr = None); [|congruence]. clear E. induction HR as [v Hb Hn|v tr e v' os HR IH Hev Hen Hs]; [reflexivity|].
    rewrite uchan_next. destruct (existsb (is_ufree uid) os); [reflexivity|]. destruct e as [? ? ?|? ? ?|?|?|[| |] m w|?]; auto.
    destruct (view_out uid tr b0 v HR Hu) as (_ & _ & _ & A). rewrite A, andb_false_r. exact IH.
Qed.
Lemma free_in uid os : existsb (is_ufree uid) os = true <-> In (UFree uid) os.
Proof.
  rewrite existsb_exists. split.
  - intros (o & Hi & H). destruct o; try discriminate H. apply Z.eqb_eq in H as ->. exact Hi.
  - intros H. exists (UFree uid). split; [auto|]. apply Z.eqb_refl.
Qed.
(** When a connection ends, its channel is told, unless the channels asked for the end or another channel replaces it. *)
Lemma freed_tells b0 v tr e v' os uid ch : ureach b0 v tr -> tev_ok e -> tsrv_enabled v e = true -> tsrv_step v e = Some (v', os) ->
  uchan uid tr = Some ch -> In (UFree uid) os ->
  In (URelInd uid ch) os \/ e = EvRelease uid \/ exists m w, e = EvMsg KOpn m w /\ um_conn m = uid /\ um_chan m <> ch.
Proof.
  intros HR Hok Hen Hs Ech Hi. destruct (chan_acked _ _ _ _ _ HR Ech) as (Hu0 & Ha).
  destruct (step_cases _ _ _ _ _ _ HR Hok Hen Hs) as [(u & c & Hu & Ec & HT & Hc)|(b1 & b2 & b3 & _ & Hc)].
  - pose proof (acked_st _ _ _ HT) as HA. pose proof (conn_chan _ _ _ HT) as HC.
    assert (G : forall x, In (UFree uid) (closing u x) -> u = uid).
    { intros x H. apply closing_in in H as [(c0 & _ & E)|[E|E]]; congruence. }
    destruct e as [? ? ?|t r w|t|t|kd m w|t].
    + contradiction.
    + destruct Hc as (-> & [(_ & ->)|[(Est & [->|[->|[->|(k & ->)]]])|(Est & [->|[->|(k & ch0 & ck & len & d & -> & _)]])]]); cbn in Hi; try intuition discriminate.
      * destruct Hi as [Hi|[Hi|[]]]; [discriminate|]. injection Hi as ->. unfold uacked in Ha. apply HA in Ha. congruence.
      * pose proof (G _ Hi) as ->. left. unfold uchan in Ech. unfold closing. rewrite HC, Ech. now left.
    + destruct Hc as (_ & ->). contradiction.
    + destruct Hc as (-> & Hn & ->). pose proof (G _ Hi) as ->. left. unfold uacked in Ha. apply HA in Ha. unfold uchan in Ech. rewrite Ha, HC, Ech. now left.
    + destruct Hc as (Hm & [(_ & ->)|(Est & [(k & Hk & -> & Hch)| ->])]).
      * contradiction. * cbn in Hi; intuition discriminate.
      * pose proof (G _ Hi) as ->. destruct kd; try (left; unfold uchan in Ech; unfold closing; rewrite HC, Ech; now left).
        destruct (Z.eq_dec (um_chan m) ch) as [->|N]; [left; now left|]. right. right. eauto.
    + destruct Hc as (-> & ->). right. left. destruct (ust_eqb (t_st c) UConn); cbn in Hi; [|contradiction]. destruct Hi as [Hi|[Hi|[]]]; [discriminate|]. congruence.
  - destruct Hc as [(_ & ->)|[(_ & _ & _ & ->)|(_ & _ & _ & u & _ & _ & ->)]]; [| |destruct b3]; cbn in Hi; intuition discriminate.
Qed.
(** An open response: the client that is there takes the channel, or its connection ends and the channel is told. *)
Lemma opn_taken b0 v tr m w v' os : ureach b0 v tr -> umsg_ok m -> tsrv_step v (EvMsg KOpn m w) = Some (v', os) -> uacked (um_conn m) tr ->
  uchan (um_conn m) (tr ++ [(EvMsg KOpn m w, os)]) = Some (um_chan m) \/ In (URelInd (um_conn m) (um_chan m)) os.
Proof.
  intros HR Hok Hs Ha. rewrite uchan_next. destruct (existsb (is_ufree (um_conn m)) os) eqn:Ef.
  - right. apply free_in in Ef.
    destruct (step_cases b0 v tr (EvMsg KOpn m w) v' os HR Hok eq_refl Hs) as [(u & c & Hu & Ec & HT & <- & Hc)|(b1 & b2 & b3 & E & _)]; [|discriminate E].
    destruct Hc as [(_ & ->)|(_ & [(n & _ & -> & _)| ->])]; [contradiction|cbn in Ef; intuition discriminate|now left].
  - left. unfold uacked in Ha. now rewrite Z.eqb_refl, Ha.
Qed.
Lemma other_chan b0 v tr e v' os uid ch : ureach b0 v tr -> tev_ok e -> tsrv_enabled v e = true -> tsrv_step v e = Some (v', os) ->
  uchan uid tr = Some ch ->
  uchan uid (tr ++ [(e, os)]) = Some ch \/ In (URelInd uid ch) os \/ e = EvRelease uid \/ exists m w, e = EvMsg KOpn m w /\ um_conn m = uid /\ um_chan m <> ch.
Proof.
  intros HR Hok Hen Hs Ech. pose proof (freed_tells _ _ _ _ _ _ _ _ HR Hok Hen Hs Ech) as F. rewrite uchan_next.
  destruct (existsb (is_ufree uid) os) eqn:Ef; [apply free_in in Ef; tauto|].
  destruct e as [? ? ?|? ? ?|?|?|[| |] m w|?]; auto. destruct (Z.eqb_spec (um_conn m) uid) as [E|N]; cbn [andb]; auto. destruct (g_acked (uview_of uid tr)); auto.
  destruct (Z.eq_dec (um_chan m) ch) as [->|N]; [auto|]. right. right. right. eauto.
Qed.

Lemma disowned b0 ini y tr e y' r ch : YInv b0 ini y tr -> yev_ok e -> y_enabled y e = true -> y_step y e = Some (y', r) ->
  copen ch (cproj tr) -> owned ch y tr -> copen ch (cproj (tr ++ [r])) -> owned ch y' (tr ++ [r]) \/ disowns ch y tr e.
Proof.
  intros [HT HC HS HN HQ HCh HSe] Hev Hen Hs Ho Hw Ho'. unfold disowns. pose proof (y_cases _ _ _ _ Hen Hs) as F.
  assert (L : lossless e \/ ~ lossless e).
  { destruct e as [e [|]|o [|]]; cbn; first [left; reflexivity|right; discriminate]. }
  destruct L as [L|L]; [|tauto].
  destruct F as [e keep v os He Hst ->|k m o keep q v os Eq Hst ->|c o keep q v os Eq Hst ->|m e o keep q v os Eq Hm Hst ->|m o keep q v os Eq Hst ->];
    cbn [lossless] in L; subst keep; assert (K : forall l, kept [] l = l) by (intros [|? ?]; reflexivity); rewrite !K; clear K;
    unfold owned; rewrite tproj_snoc; cbn [y_q].
  - destruct (net_ok _ _ _ He) as (A & _ & B). left. destruct Hw as [(uid & E)|E]; [|right; apply Exists_app; tauto].
    destruct (other_chan _ _ _ _ _ _ _ _ HT Hev A Hst E) as [X|[X|[->|(m & w & -> & _)]]]; [left; eauto| |contradiction|contradiction].
    right. apply Exists_app. right. apply Exists_exists. exists (IRelInd uid ch). split; [apply t_in; right; eauto|reflexivity].
  - rewrite Eq in HQ. apply Forall_cons_iff in HQ as [(M1 & _) HQ]. rewrite Eq.
    assert (G : In (URelInd (um_conn m) ch) os -> Exists (tells ch) (q ++ t_msgs os)).
    { intros X. apply Exists_app. right. apply Exists_exists. exists (IRelInd (um_conn m) ch). split; [apply t_in; right; eauto|reflexivity]. }
    destruct Hw as [(uid & E)|E].
    + destruct (other_chan _ _ _ (EvMsg k m (o_w o)) _ _ _ _ HT M1 eq_refl Hst E) as [X|[X|[X|(m0 & w & X & Y & Z)]]].
      * left. left. eauto.
      * left. right. apply Exists_app. right. apply Exists_exists. exists (IRelInd uid ch). split; [apply t_in; right; eauto|reflexivity].
      * discriminate X.
      * injection X as -> -> _. right. right. right. split; [auto|]. congruence.
    + rewrite Eq in E. apply Exists_cons in E as [E|E]; [|left; right; apply Exists_app; tauto]. destruct k; cbn in E; try contradiction.
      destruct (g_acked (uview_of (um_conn m) (tproj tr))) eqn:Ea.
      * left. destruct (opn_taken _ _ _ _ _ _ _ HT M1 Hst Ea) as [X|X]; rewrite E in X; [left; eauto|right; auto].
      * right. right. left. split; [auto|]. unfold uacked. congruence.
  - rewrite Eq in HQ. apply Forall_cons_iff in HQ as [Hc HQ]. rewrite Eq. assert (Hu : tev_ok (EvRelease c)) by (cbn in *; auto using r32).
    destruct Hw as [(uid & E)|E].
    + destruct (other_chan _ _ _ _ _ _ _ _ HT Hu eq_refl Hst E) as [X|[X|[X|(m0 & w & X & Y & Z)]]].
      * left. left. eauto.
      * left. right. apply Exists_app. right. apply Exists_exists. exists (IRelInd uid ch). split; [apply t_in; right; eauto|reflexivity].
      * injection X as ->. right. right. auto.
      * discriminate X.
    + rewrite Eq in E. apply Exists_cons in E as [E|E]; [contradiction|]. left. right. apply Exists_app. tauto.
  - rewrite app_nil_r. left. destruct Hw as [E|E]; [left; exact E|]. rewrite Eq in E. apply Exists_cons in E as [E|E]; [|right; apply Exists_app; tauto].
    exfalso. rewrite Eq in HQ. apply Forall_cons_iff in HQ as [Hi HQ]. destruct (c_event_ok _ _ _ Hev Hi Hm) as [Hok Hfq].
    destruct m as [[| |] x|c h|[| |] x|c|x|x|h]; try contradiction. cbn in E. subst h e. destruct Hi as (I1 & I2).
    destruct (relind_fact _ _ _ HC c ch Hok I2) as (F1 & _). destruct (F1 Ho) as [v2 F2]. rewrite F2 in Hst. apply some2 in Hst as (_ & <-).
    rewrite cproj_snoc in Ho'. unfold copen in Ho, Ho'. rewrite cview_snoc in Ho'. unfold cview_next, taken, ccount in Ho'. cbn [filter is_tx is_cfree] in Ho'. rewrite Z.eqb_refl in Ho'. cbn [length w_opens w_frees] in Ho'. lia.
  - rewrite app_nil_r. left. destruct Hw as [E|E]; [left; exact E|]. rewrite Eq in E. apply Exists_cons in E as [E|E]; [contradiction|right; apply Exists_app; tauto].
Qed.
(** A channel is opened for a connection that is told of it. *)
Lemma opened_owned b0 ini y tr e y' r ch : YInv b0 ini y tr -> yev_ok e -> y_enabled y e = true -> y_step y e = Some (y', r) ->
  ~ copen ch (cproj tr) -> copen ch (cproj (tr ++ [r])) -> lossless e -> owned ch y' (tr ++ [r]).
Proof.
  intros [HT HC HS HN HQ HCh HSe] Hev Hen Hs Hn Ho L. pose proof (y_cases _ _ _ _ Hen Hs) as F. rewrite cproj_snoc in Ho.
  destruct F as [e keep v os He Hst ->|k m o keep q v os Eq Hst ->|c o keep q v os Eq Hst ->|m e o keep q v os Eq Hm Hst ->|m o keep q v os Eq Hst ->];
    rewrite ?app_nil_r in Ho; try contradiction. cbn [lossless] in L. subst keep.
  rewrite Eq in HQ. apply Forall_cons_iff in HQ as [Hi HQ]. destruct (c_event_ok _ _ _ Hev Hi Hm) as [Hok Hfq].
  assert (X : exists x, In (CTx KOpn x) os /\ um_chan x = ch).
  { assert (Nf : ~ In (CFree ch) os) by (intros Hf; apply Hn; now destruct (free_cause _ _ _ _ _ _ _ HC Hok Hst Hf)).
    apply free_none in Nf. unfold copen in Ho, Hn. rewrite cview_snoc in Ho. unfold cview_next in Ho.
    destruct e as [m0 j rnd t1 t2|m0 j now|m0 j|h|m0|c0 ch0]; cbn [w_opens w_frees] in Ho; rewrite ?Nf in Ho; try (exfalso; lia).
    - destruct os as [|[[| |] x| | | |] [|? ?]]; cbn [w_opens w_frees] in Ho; try (exfalso; rewrite ?Nf in Ho; lia).
      destruct (Z.eqb_spec (um_chan x) ch) as [E|N]; [|exfalso; rewrite ?Nf in Ho; lia]. exists x. split; [now left|exact E].
    - destruct ((e_chan h =? ch) && _ && _); cbn [w_opens w_frees] in Ho; exfalso; lia. }
  destruct X as (x & X & E). right. cbn [y_q]. apply Exists_app. right. apply Exists_exists. exists (ITx KOpn x). split; [|exact E].
  assert (K : forall l, kept [] l = l) by (intros [|? ?]; reflexivity). rewrite K. apply c_in. left. eauto.
Qed.

(** * The queue empties *)
Definition weight1 (m : imsg) : nat :=
  match m with IRelInd _ _ | IRelReq _ | IAssoc _ => 1 | ITx _ _ => 2 | ISend _ => 3 | IInd _ => 5 | IFwd _ _ => 6 end.
Fixpoint weight (q : list imsg) : nat := match q with [] => 0 | m :: r => (weight1 m + weight r)%nat end.
Lemma weight_app a b : weight (a ++ b) = (weight a + weight b)%nat.
Proof. induction a as [|m a IH]; cbn [app weight]; lia. Qed.
Lemma weight_sub a b : sub a b -> (weight a <= weight b)%nat.
Proof. induction 1; cbn [weight] in *; lia. Qed.
Lemma weight_step b0 ini y tr o keep y' r : YInv b0 ini y tr -> oracle_ok o -> y_enabled y (YMsg o keep) = true -> y_step y (YMsg o keep) = Some (y', r) ->
  (weight (y_q y') < weight (y_q y))%nat.
Proof.
  intros [HT HC HS HN HQ HCh HSe] Hev Hen Hs. pose proof (y_cases _ _ _ _ Hen Hs) as F.
  assert (W : forall q keep ms m, (weight ms < weight1 m)%nat -> (weight (q ++ kept keep ms) < weight (m :: q))%nat).
  { intros q k ms m H. rewrite weight_app. pose proof (weight_sub _ _ (kept_sub k ms)). cbn [weight]. lia. }
  inversion F as [|k m o' keep' q v os Eq Hst Ey E1 E2|c o' keep' q v os Eq Hst Ey E1 E2|m e o' keep' q v os Eq Hm Hst Ey E1 E2|m o' keep' q v os Eq Hst Ey E1 E2]; subst o' keep' r; clear F;
    rewrite Eq in HQ |- *; apply Forall_cons_iff in HQ as [Hi HQ]; rewrite Ey; cbn [y_q]; apply W.
  - destruct Hi as (M1 & _).
    destruct (step_cases _ _ _ (EvMsg k m (o_w o)) _ _ HT M1 eq_refl Hst) as [(u & c & Hu & Ec & HTo & <- & Hc)|(b1 & b2 & b3 & E & _)]; [|discriminate E].
    destruct Hc as [(_ & ->)|(_ & [(n & _ & -> & _)| ->])]; [cbn; lia|cbn; lia|]. unfold closing. destruct (match k with KOpn => _ | _ => _ end); cbn; lia.
  - assert (Hu : tev_ok (EvRelease c)) by (cbn in *; auto using r32).
    destruct (step_cases _ _ _ _ _ _ HT Hu eq_refl Hst) as [(u & c' & Hu' & Ec & HTo & _ & ->)|(b1 & b2 & b3 & E & _)]; [|discriminate E].
    destruct (ust_eqb (t_st c') UConn); cbn; lia.
  - destruct (c_event_ok _ _ _ Hev Hi Hm) as [Hok Hfq]. pose proof (step_fact _ _ _ _ _ _ HC Hok Hst) as F.
    destruct F as [m0 j rnd t1 t2 os Hop|e t Ec Ht Hn|m0 j e Hor Ht Ho Hac|m0 j Ht Ho Hac Hl|m0 Ht|m0 t Et Ht Ho Hsd Hl|m0 j now t r b Et Ht Ho Hac Hcd|m0 j now Ht Ho Hac Hcd|h Ht Ho|conn ch0 Ht Ho].
    + destruct m as [[| |] x|? ?|? ?|?|?|x|?]; try discriminate Hm; try contradiction. destruct Hop; cbn; lia.
    + destruct m; cbn; lia.
    + destruct m as [[| |] x|? ?|? ?|?|?|x|?]; try contradiction; destruct Hor as [->|(now & ->)]; try discriminate Hm; cbn; lia.
    + destruct m as [[| |] x|? ?|? ?|?|?|x|?]; try discriminate Hm; try contradiction. cbn; lia.
    + destruct m; cbn; lia.
    + destruct m as [[| |] x|? ?|? ?|?|?|x|?]; try discriminate Hm; try contradiction. cbn; lia.
    + destruct m as [[| |] x|? ?|? ?|?|?|x|?]; try discriminate Hm; try contradiction. cbn; lia.
    + destruct m; cbn; lia.
    + destruct m; cbn; lia.
    + destruct m; cbn; lia.
  - destruct Hev as (O1 & O2 & O3 & O4). destruct Hi as (I1 & I2).
    assert (Hok : sev_ok (SvInd m (o_j o) (o_t1 o))) by (cbn; auto).
    destruct (ind_served _ _ _ _ _ _ _ HS Hok Hst) as [(E & _)|(_ & [(qq & _ & Hsv & _)|[(_ & ->)|(_ & ->)]])].
    + congruence. + destruct Hsv; cbn; lia. + cbn; lia. + cbn; lia.
Qed.
Lemma weight_bound q : (weight q <= 6 * length q)%nat.
Proof. induction q as [|m q IH]; [cbn; lia|]. cbn [weight length]. destruct m; cbn [weight1]; lia. Qed.

(** * Sessions *)
(** A session lives until a close request that names it is served. *)
Lemma session_lives b0 ini y tr e y' r sid : YInv b0 ini y tr -> yev_ok e -> y_enabled y e = true -> y_step y e = Some (y', r) ->
  live sid (sproj tr) ->
  live sid (sproj (tr ++ [r])) \/
  exists o keep m q qq os, e = YMsg o keep /\ y_q y = IInd m :: q /\ r = RS (SvInd m (o_j o) (o_t1 o)) os /\
    parse m (o_j o) = PReq (QClo qq) /\ named (QClo qq) = Some sid.
Proof.
  intros [HT HC HS HN HQ HCh HSe] Hev Hen Hs Hl. pose proof (y_cases _ _ _ _ Hen Hs) as F. rewrite sproj_snoc.
  destruct F as [e keep v os He Hst ->|k m o keep q v os Eq Hst ->|c o keep q v os Eq Hst ->|m e o keep q v os Eq Hm Hst ->|m o keep q v os Eq Hst ->];
    rewrite ?app_nil_r; auto.
  rewrite Eq in HQ. apply Forall_cons_iff in HQ as [(I1 & I2) HQ]. destruct Hev as (O1 & O2 & O3 & O4).
  assert (Hok : sev_ok (SvInd m (o_j o) (o_t1 o))) by (cbn; auto).
  destruct (ind_served _ _ _ _ _ _ _ HS Hok Hst) as [(E & _)|(_ & X)]; [congruence|].
  unfold live, liveb in *. rewrite sview_snoc. unfold sview_next. 
  destruct X as [(qq & Eq' & Hsv & _)|[(Ep & ->)|(Ep & ->)]].
  2:{ left. destruct (parse m (o_j o)) as [[]| | |]; auto. }
  2:{ left. destruct (parse m (o_j o)) as [[]| | |]; auto. }
  rewrite Eq'. destruct Hsv as [r|r Hf|r s Hf Hin Hnl|r s Hnm Hlv|r Hnm|r s Hnm Hlv|r Hnm|r Hlv Hb|r Hor Hno]; auto.
  - rewrite create_sid. destruct (Z.eqb_spec s sid) as [->|N]; auto.
  - left. match goal with |- context[if ?b then _ else _] => destruct b end; auto.
  - destruct (n_val (rq_token (cl_hdr r))) eqn:En; auto. match goal with |- context[?t =? sid] => destruct (Z.eqb_spec t sid) as [->|N] end; auto.
    right. exists o, keep, m, q, r. eexists. split; [reflexivity|]. split; [auto|]. split; [reflexivity|]. split; [auto|]. unfold named. cbn [q_hdr]. now rewrite En.
Qed.

(** * Consequences *)
Lemma none_open ini v tr : creach ini v tr -> (forall ch, 1 <= ch <= 32 -> ~ copen ch tr) -> copened tr = 0%nat.
Proof.
  intros HR H. pose proof (UaChanRuns.reach_inv _ _ _ HR) as HI. rewrite (opened_eq _ _ HI). destruct HI as [A O _].
  assert (L : length (q_ch v) = 32%nat) by (destruct O as (? & _ & _ & _ & X); exact X).
  assert (X : forall i c, nth_error (q_ch v) i = Some c -> h_est c = false).
  { intros i c E. assert (i < 32)%nat by (rewrite <- L; apply nth_error_Some; congruence). eapply CO_shut; [apply A, E|]. apply H. lia. }
  clear - X. unfold EntProofs.nact. induction (q_ch v) as [|c l IH]; [reflexivity|]. cbn [filter]. rewrite (X 0%nat c eq_refl). apply IH. intros i. apply (X (S i)).
Qed.
Lemma careful_reach b0 ini y tr : ycareful b0 ini y tr -> yreach b0 ini y tr.
Proof. induction 1; econstructor; eauto. Qed.
Lemma careful_owned b0 ini y tr ch : ycareful b0 ini y tr -> copen ch (cproj tr) -> owned ch y tr.
Proof.
  intros H. induction H as [y A B C|y tr e y' r H IH Hev Hen Hd Hs]; intros Ho.
  - cbn in Ho. discriminate Ho.
  - pose proof (y_reach_inv _ _ _ _ (careful_reach _ _ _ _ H)) as HI. destruct (copen_dec ch (cproj tr)) as [D|D].
    + destruct (disowned _ _ _ _ _ _ _ ch HI Hev Hen Hs D (IH D) Ho) as [X|X]; [exact X|]. now destruct (Hd ch).
    + eapply opened_owned; eauto. specialize (Hd ch). unfold disowns in Hd. destruct e as [? [|]|? [|]]; cbn [lossless] in *; try reflexivity; exfalso; apply Hd; left; discriminate.
Qed.

Lemma sub_filter {A} (f : A -> bool) l k : sub l k -> sub (filter f l) (filter f k).
Proof. induction 1 as [|x l k H IH|x l k H IH]; cbn [filter]; [constructor| |]; destruct (f x); try apply sub_take; try apply sub_skip; auto. Qed.
Lemma sub_map {A B} (f : A -> B) l k : sub l k -> sub (map f l) (map f k).
Proof. induction 1; cbn [map]; [constructor|apply sub_skip|apply sub_take]; auto. Qed.
Lemma sub_left {A} (a b c : list A) : sub (a ++ b) c -> sub a c.
Proof. intros H. eapply sub_trans; [|exact H]. rewrite <- (app_nil_r a) at 1. apply sub_app; [apply sub_refl|apply sub_nil_l]. Qed.

(** * Draining *)
Lemma drain_path l : forall y y2 tr, Forall oracle_ok l -> ydrain y l = Some (y2, tr) -> ypath y tr y2 /\ y_q y2 = [].
Proof.
  induction l as [|o l IH]; intros y y2 tr Hl H; cbn [ydrain] in H.
  - destruct (y_q y) eqn:E; [|discriminate]. injection H as <- <-. split; [constructor|auto].
  - destruct (y_q y) eqn:E; [injection H as <- <-; split; [constructor|auto]|].
    destruct (y_step y (YMsg o [])) as [[y1 r]|] eqn:Es; [|discriminate]. destruct (ydrain y1 l) as [[y3 tr3]|] eqn:Ed; [|discriminate].
    injection H as <- <-. apply Forall_cons_iff in Hl as [Ho Hl]. destruct (IH _ _ _ Hl Ed) as [P Q]. split; [|exact Q].
    clear - P Ho Es E. assert (G : forall tr3 y3, ypath y1 tr3 y3 -> ypath y (r :: tr3) y3).
    { intros t z P0. induction P0 as [|t e2 z z3 r2 P0 IH A2 B2 C2].
      - apply (yp_step y [] (YMsg o []) y y1 r (yp_nil y)); [exact Ho|cbn; now rewrite E|exact Es].
      - exact (yp_step y (r :: t) e2 z z3 r2 IH A2 B2 C2). }
    auto.
Qed.
(** Either a handler's behaviour is undefined or the queue is empty after at most [weight] deliveries. *)
Lemma drains l : forall b0 ini y tr, yreach b0 ini y tr -> Forall oracle_ok l -> (weight (y_q y) <= length l)%nat ->
  (exists y2 tr2, ydrain y l = Some (y2, tr2) /\ (length tr2 <= weight (y_q y))%nat) \/
  (exists y2 tr2 o, ypath y tr2 y2 /\ oracle_ok o /\ y_q y2 <> [] /\ y_step y2 (YMsg o []) = None).
Proof.
  induction l as [|o l IH]; intros b0 ini y tr HR Hl Hw; cbn [ydrain].
  - destruct (y_q y) as [|m q] eqn:E; [left; exists y, []; split; [reflexivity|cbn; lia]|]. exfalso. destruct m; cbn [weight weight1 length] in Hw; lia.
  - destruct (y_q y) as [|m q] eqn:E; [left; exists y, []; split; [reflexivity|cbn; lia]|]. rewrite <- E in Hw |- *.
    apply Forall_cons_iff in Hl as [Ho Hl].
    assert (Hen : y_enabled y (YMsg o []) = true) by (cbn; now rewrite E).
    destruct (y_step y (YMsg o [])) as [[y1 r]|] eqn:Es.
    + pose proof (weight_step _ _ _ _ _ _ _ _ (y_reach_inv _ _ _ _ HR) Ho Hen Es) as W. cbn [length] in Hw.
      assert (R1 : yreach b0 ini y1 (tr ++ [r])) by (exact (yr_step _ _ _ _ (YMsg o []) _ _ HR Ho Hen Es)).
      destruct (IH b0 ini y1 _ R1 Hl ltac:(lia)) as [(y2 & tr2 & D & L)|(y2 & tr2 & o2 & P & O2 & N & U)].
      * left. rewrite D. exists y2, (r :: tr2). split; [reflexivity|]. cbn [length]. lia.
      * right. exists y2, (r :: tr2), o2. split; [|auto]. clear - P Ho Es Hen.
        induction P as [|t e2 z z3 r2 P0 IH0 A2 B2 C2]; [apply (yp_step y [] (YMsg o []) y y1 r (yp_nil y)); assumption|].
        exact (yp_step y (r :: t) e2 z z3 r2 IH0 A2 B2 C2).
    + right. exists y, [], o. split; [constructor|]. split; [exact Ho|]. split; [congruence|exact Es].
Qed.
