(** Histories of the Modbus component: every client and server runs by itself. *)
From Verif Require Import Base QueueModel PoolModel MsgStorageModel ModbusCodecModel ModbusCodecSpec ModbusClientModel ModbusStoreProofs ModbusClientSpec ModbusClientProofs ModbusClientRuns ModbusClientFacts ModbusServerModel ModbusServerSpec ModbusCompModel ModbusCompSpec ModbusCompProofs.
Local Open Scope Z_scope.

(** * Items read from octets fit their types *)
Lemma slice_bytes n m o l : bytes_ok m -> slice n m o = Some l -> bytes_ok l /\ length l = n.
Proof.
  unfold slice. destruct (Nat.leb_spec (o + n) (length m)); [|discriminate]. intros Hm [= <-]. split.
  - apply Forall_forall. intros x Hx. apply (proj1 (Forall_forall _ _) Hm). rewrite <- (firstn_skipn o m). apply in_or_app. right.
    rewrite <- (firstn_skipn n (skipn o m)). apply in_or_app. now left.
  - rewrite firstn_length, skipn_length. lia.
Qed.
Lemma load_bound n m o v : bytes_ok m -> load n m o = Some v -> 0 <= v < 256 ^ Z.of_nat n.
Proof.
  intros Hm. rewrite load_slice. destruct (slice n m o) as [l|] eqn:E; [|discriminate]. intros [= <-].
  apply slice_bytes in E as [E <-]; [|exact Hm]. now apply le_val_bound.
Qed.
Lemma rd_item_ok m o it : bytes_ok m -> rd_item m o = Some it -> item_ok it.
Proof.
  intros Hm. unfold rd_item.
  destruct (load 4 m o) as [c|] eqn:E1; [|discriminate]. cbn [obind].
  destruct (load 4 m (o + 4)) as [t|] eqn:E2; [|discriminate]. cbn [obind].
  destruct (load 1 m (o + 8)) as [f|] eqn:E3; [|discriminate]. cbn [obind].
  destruct (load 2 m (o + 10)) as [a|] eqn:E4; [|discriminate]. cbn [obind].
  destruct (load 2 m (o + 12)) as [s|] eqn:E5; [|discriminate]. cbn [obind].
  destruct (load 2 m (o + 14)) as [n|] eqn:E6; [|discriminate]. cbn [obind].
  destruct (load 2 m (o + 16)) as [nb|] eqn:E7; [|discriminate]. cbn [obind].
  destruct (slice (Z.to_nat nb) m (o + 18)) as [d|] eqn:E8; [|discriminate]. cbn [obind]. intros [= <-].
  apply load_bound in E1, E2, E3, E4, E5, E6, E7; try exact Hm. apply slice_bytes in E8 as [E8 L]; [|exact Hm].
  change (256 ^ Z.of_nat 4) with 4294967296 in *. change (256 ^ Z.of_nat 1) with 256 in *. change (256 ^ Z.of_nat 2) with 65536 in *.
  assert (Q : nb = Z.of_nat (length d)) by (rewrite L, Z2Nat.id; lia).
  unfold item_ok, req_ok, is_u32, is_u16, is_byte. cbn [i_client i_req q_tid q_func q_addr q_start q_nitems q_nbytes q_data].
  split; [lia|]. split; [|exact Q]. do 6 (split; [lia|]). split; [exact E8|lia].
Qed.
Lemma rd_items_ok m k : forall i its, bytes_ok m -> rd_items m i k = Some its -> Forall item_ok its.
Proof.
  induction k as [|k IH]; intros i its Hm E; cbn [rd_items] in E; [injection E as <-; constructor|].
  destruct (item_off m i) as [o|]; [|discriminate]. cbn [obind] in E.
  destruct (rd_item m o) as [it|] eqn:E1; [|discriminate]. cbn [obind] in E.
  destruct (rd_items m (S i) k) as [r|] eqn:E2; [|discriminate]. cbn [obind] in E. injection E as <-.
  constructor; [eapply rd_item_ok; eauto|eapply IH; eauto].
Qed.
Lemma read_batch_ok m its : bytes_ok m -> read_batch m = Some its -> Forall item_ok its.
Proof.
  intros Hm. unfold read_batch. destruct (num_items m) as [n|]; [|discriminate]. cbn [obind]. now apply rd_items_ok.
Qed.

(** * One object at a time *)
Lemma slot_upd {A} (l : list (option A)) i j x : 0 <= i -> 0 <= j -> (Z.to_nat i < length l)%nat ->
  nth_slot (upd l (Z.to_nat i) (Some x)) j = if i =? j then Some x else nth_slot l j.
Proof.
  intros Hi Hj H. unfold nth_slot. destruct (Z.eqb_spec i j) as [->|Hne].
  - now rewrite nth_error_upd_eq.
  - rewrite nth_error_upd_neq by lia. reflexivity.
Qed.
Lemma slot_some {A} (l : list (option A)) i x : nth_slot l i = Some x -> (Z.to_nat i < length l)%nat.
Proof.
  unfold nth_slot. intros H. apply nth_error_Some. intros E. rewrite E in H. discriminate.
Qed.
Lemma slot_none {A} n i : nth_slot (repeat (@None A) n) i = None.
Proof.
  unfold nth_slot. destruct (nth_error (repeat None n) (Z.to_nat i)) as [[x|]|] eqn:E; auto.
  apply nth_error_In, repeat_spec in E. discriminate.
Qed.

Definition cslot (c : option modbus) (id : Z) := match c with Some b => nth_slot (b_clients b) id | None => None end.
Definition vslot (c : option modbus) (id : Z) := match c with Some b => nth_slot (b_servers b) id | None => None end.

Definition cli_rel (s : option (client astore)) (h : option trace) : Prop :=
  match h, s with
  | None, None => True
  | Some t, Some k => exists m0 b0, length b0 = 512%nat /\ bytes_ok b0 /\ Forall ev_ok (map fst t) /\ boot m0 b0 (map fst t) = Some (k, t)
  | _, _ => False
  end.
Definition srv_rel (s : option server) (h : option strace) : Prop :=
  match h, s with
  | None, None => True
  | Some t, Some v => exists b0 q0, reach b0 q0 v t
  | _, _ => False
  end.
Definition chist id (hs : list mout) := fold_left (client_hist id) hs None.
Definition shist id (hs : list mout) := fold_left (server_hist id) hs None.
Definition HI (b : modbus) (hs : list mout) : Prop :=
  forall id, 0 <= id -> cli_rel (nth_slot (b_clients b) id) (chist id hs) /\ srv_rel (nth_slot (b_servers b) id) (shist id hs).
Definition dims (b : modbus) (z : Z * Z) : Prop :=
  length (b_servers b) = Z.to_nat (fst z) /\ length (b_clients b) = Z.to_nat (snd z) /\ is_u32 (fst z) /\ is_u32 (snd z).

Lemma chist_snoc id hs o : chist id (hs ++ [o]) = client_hist id (chist id hs) o.
Proof. unfold chist. now rewrite fold_left_app. Qed.
Lemma shist_snoc id hs o : shist id (hs ++ [o]) = server_hist id (shist id hs) o.
Proof. unfold shist. now rewrite fold_left_app. Qed.

Definition inert (o : mout) : bool := match o with MNoClient _ _ | MConfigRsp _ | MThrow | MTerminate => true | _ => false end.
Lemma hi_inert b hs o : inert o = true -> HI b hs -> HI b (hs ++ [o]).
Proof. intros Ho H id Hid. specialize (H id Hid). rewrite chist_snoc, shist_snoc. destruct o; try discriminate; exact H. Qed.

Lemma hi_cli b hs id k e k' os : HI b hs -> 0 <= id -> nth_slot (b_clients b) id = Some k -> enabled k e = true -> ev_ok e ->
  ac_step k e = Some (k', os) -> HI (set_client b id k') (hs ++ [MCli id e os]).
Proof.
  intros H Hid Hs En He Es j Hj. specialize (H j Hj) as [H1 H2]. rewrite chist_snoc, shist_snoc.
  unfold set_client. cbn [b_clients b_servers client_hist server_hist]. split; [|exact H2].
  rewrite slot_upd by (auto; eapply slot_some; eauto). destruct (Z.eqb_spec id j) as [->|]; [|exact H1].
  rewrite Hs in H1. destruct (chist j hs) as [t|]; [|contradiction]. cbn [option_map cli_rel] in *.
  destruct H1 as (m0 & b0 & Hl & Hb & Hev & Eb). exists m0, b0. rewrite map_app. cbn [map fst].
  do 2 (split; [assumption|]). split; [apply Forall_app; auto|]. rewrite (boot_snoc _ _ _ _ _ _ Eb), En. unfold ac_step in Es. now rewrite Es.
Qed.
Lemma hi_srv b hs id v e v' os : HI b hs -> 0 <= id -> nth_slot (b_servers b) id = Some v -> srv_enabled v e = true -> vev_ok e ->
  srv_step v e = Some (v', os) -> HI (set_server b id v') (hs ++ [MSrv id e os]).
Proof.
  intros H Hid Hs En He Es j Hj. specialize (H j Hj) as [H1 H2]. rewrite chist_snoc, shist_snoc.
  unfold set_server. cbn [b_clients b_servers client_hist server_hist]. split; [exact H1|].
  rewrite slot_upd by (auto; eapply slot_some; eauto). destruct (Z.eqb_spec id j) as [->|]; [|exact H2].
  rewrite Hs in H2. destruct (shist j hs) as [t|]; [|contradiction]. cbn [option_map srv_rel] in *.
  destruct H2 as (b0 & q0 & R). exists b0, q0. eapply re_step; eauto.
Qed.
Lemma hi_new_client b hs id m0 b0 st : HI b hs -> 0 <= id -> (Z.to_nat id < length (b_clients b))%nat ->
  length b0 = 512%nat -> bytes_ok b0 -> as_new m0 = Some st -> HI (set_client b id (c_new st b0)) (hs ++ [MNewClient id]).
Proof.
  intros H Hid Hs Hl Hb En j Hj. specialize (H j Hj) as [H1 H2]. rewrite chist_snoc, shist_snoc.
  unfold set_client. cbn [b_clients b_servers client_hist server_hist]. split; [|exact H2].
  rewrite slot_upd by auto. destruct (Z.eqb_spec id j) as [->|]; [|exact H1].
  exists m0, b0. do 2 (split; [assumption|]). split; [constructor|]. unfold boot. rewrite En. reflexivity.
Qed.
Lemma hi_new_server b hs id b0 q0 v : HI b hs -> 0 <= id -> (Z.to_nat id < length (b_servers b))%nat ->
  mem_ok b0 q0 -> srv_new maxNumSession b0 q0 = Some v -> HI (set_server b id v) (hs ++ [MNewServer id]).
Proof.
  intros H Hid Hs Hm En j Hj. specialize (H j Hj) as [H1 H2]. rewrite chist_snoc, shist_snoc.
  unfold set_server. cbn [b_clients b_servers client_hist server_hist]. split; [exact H1|].
  rewrite slot_upd by auto. destruct (Z.eqb_spec id j) as [->|]; [|exact H2].
  exists b0, q0. now constructor.
Qed.
Lemma upd_upd {A} (l : list A) i x y : upd (upd l i x) i y = upd l i y.
Proof. revert i. induction l as [|a l IH]; intros [|i]; cbn; auto. now rewrite IH. Qed.
Lemma set_client_twice b id x y : set_client (set_client b id x) id y = set_client b id y.
Proof. unfold set_client. cbn [b_servers b_clients]. now rewrite upd_upd. Qed.
Lemma set_server_twice b id x y : set_server (set_server b id x) id y = set_server b id y.
Proof. unfold set_server. cbn [b_servers b_clients]. now rewrite upd_upd. Qed.
Lemma dims_client b z id x : dims b z -> dims (set_client b id x) z.
Proof. intros H. unfold dims, set_client in *. cbn [b_servers b_clients]. now rewrite upd_length. Qed.
Lemma dims_server b z id x : dims b z -> dims (set_server b id x) z.
Proof. intros H. unfold dims, set_server in *. cbn [b_servers b_clients]. now rewrite upd_length. Qed.

(** * Configuration *)
Lemma srv_new_ok b0 q0 : exists v, srv_new maxNumSession b0 q0 = Some v.
Proof.
  unfold srv_new. assert (E : exists p, pool_new 0 maxNumSession = Some p).
  { destruct (pool_new 0 maxNumSession) eqn:E; [eauto|]. vm_compute in E. discriminate. }
  destruct E as [p ->]. cbn [option_map]. eauto.
Qed.
Lemma start_step st b0 net : ac_step (c_new st b0) (EStart net) =
  if net then Some (mkC CConnect true (Some 3000000) st b0 0 0, [OTimer 3000000; OConnect])
  else Some (mkC CConnect false (Some 3000000) st b0 0 0, [OTimer 3000000; OThrow]).
Proof. destruct net; reflexivity. Qed.

(** What an item does that fails. *)
Definition config_failure (g : cfg) : list mout :=
  if g_mode g =? 0 then [MNewServer (g_id g); MSrv (g_id g) VStop []; MThrow]
  else if g_pools g then [MNewClient (g_id g); MCli (g_id g) (EStart false) [OTimer 3000000; OThrow]; MThrow]
  else [MThrow].

Lemma config_item_ok b z g hs : dims b z -> cfg_ok g -> HI b hs -> replaces z (b_bad b) g = false ->
  exists b', config_item b g = Some (b', if works z g then config_effect z g else config_failure g, negb (works z g)) /\
    (b_bad b' = unbound_items z (b_bad b) [g] /\ dims b' z) /\ HI b' (hs ++ if works z g then config_effect z g else config_failure g).
Proof.
  intros D [Hid Hm] H NB. pose proof D as (D1 & D2 & D3 & D4). unfold is_u32 in *.
  cbn [unbound_items]. unfold replaces in NB. unfold config_item, works, config_effect, config_failure, in_range, is_bad.
  destruct (Z.eqb_spec (g_mode g) 0) as [M0|M0].
  - destruct (Z.eqb_spec (g_mode g) 1) as [M1|M1]; [lia|]. cbn [andb orb]. rewrite !orb_false_r.
    destruct (Z.leb_spec (Z.of_nat (length (b_servers b))) (g_id g)) as [L|L].
    + destruct (Z.ltb_spec (g_id g) (fst z)) as [L'|L']; [lia|]. cbn [negb orb]. exists b. rewrite app_nil_r. auto.
    + destruct (Z.ltb_spec (g_id g) (fst z)) as [L'|L']; [|lia]. cbn [negb orb andb] in NB |- *. rewrite NB.
      destruct (srv_new_ok (g_mem g) (g_adu g)) as [v Ev]. rewrite Ev.
      assert (Hn : HI (set_server b (g_id g) v) (hs ++ [MNewServer (g_id g)])) by (eapply hi_new_server; eauto; lia).
      destruct (g_pools g && g_net g) eqn:W; cbn [negb].
      * eexists. split; [reflexivity|]. split; [split; [reflexivity|now apply dims_server]|exact Hn].
      * eexists. split; [reflexivity|]. split; [split; [destruct (g_pools g); reflexivity|destruct (g_pools g); now apply (dims_server b)]|].
        assert (Hs : nth_slot (b_servers (set_server b (g_id g) v)) (g_id g) = Some v).
        { unfold set_server. cbn [b_servers]. rewrite slot_upd by lia. now rewrite Z.eqb_refl. }
        assert (H3 := hi_srv _ _ (g_id g) v VStop (shut v) [] Hn ltac:(lia) Hs eq_refl I eq_refl).
        rewrite set_server_twice in H3. apply (hi_inert _ _ MThrow eq_refl) in H3. rewrite <- !app_assoc in H3. destruct (g_pools g); exact H3.
  - cbn [andb orb]. destruct (Z.eqb_spec (g_mode g) 1) as [M1|M1].
    + cbn [andb orb]. destruct (Z.leb_spec (Z.of_nat (length (b_clients b))) (g_id g)) as [L|L].
      * destruct (Z.ltb_spec (g_id g) (snd z)) as [L'|L']; [lia|]. cbn [negb orb]. exists b. rewrite app_nil_r. auto.
      * destruct (Z.ltb_spec (g_id g) (snd z)) as [L'|L']; [|lia]. cbn [negb orb].
        destruct (g_pools g); cbn [negb andb].
        2:{ exists b. split; [reflexivity|]. split; [split; [reflexivity|exact D]|]. now apply hi_inert. }
        destruct (rs_new (g_store g)) as (st & Est & _). rewrite Est, start_step.
        destruct Hm as (Hl & Hb & _).
        assert (Hn := hi_new_client b hs (g_id g) (g_store g) (g_mem g) st H ltac:(lia) ltac:(lia) Hl Hb Est).
        assert (Hs : nth_slot (b_clients (set_client b (g_id g) (c_new st (g_mem g)))) (g_id g) = Some (c_new st (g_mem g))).
        { unfold set_client. cbn [b_clients]. rewrite slot_upd by lia. now rewrite Z.eqb_refl. }
        destruct (g_net g); cbn [threw existsb orb negb].
        -- specialize (hi_cli _ _ (g_id g) _ (EStart true) _ _ Hn ltac:(lia) Hs eq_refl I (start_step st (g_mem g) true)) as H4.
           rewrite set_client_twice, <- app_assoc in H4. eexists. split; [reflexivity|]. split; [split; [reflexivity|now apply dims_client]|exact H4].
        -- specialize (hi_cli _ _ (g_id g) _ (EStart false) _ _ Hn ltac:(lia) Hs eq_refl I (start_step st (g_mem g) false)) as H4.
           rewrite set_client_twice in H4. apply (hi_inert _ _ MThrow eq_refl) in H4. rewrite <- !app_assoc in H4.
           eexists. split; [reflexivity|]. split; [split; [reflexivity|now apply dims_client]|exact H4].
    + cbn [andb orb negb]. exists b. rewrite app_nil_r. auto.
Qed.

(** The effects of the loop: up to and including the first failure. *)
Fixpoint config_effects (z : Z * Z) (l : list cfg) : list mout :=
  match l with
  | [] => []
  | g :: r => if works z g then config_effect z g ++ config_effects z r else config_failure g
  end.
(** Does the loop reach an item that replaces a server whose acceptor does not listen? *)
Fixpoint hits (z : Z * Z) (bad : list Z) (l : list cfg) : bool :=
  match l with [] => false | g :: r => replaces z bad g || (works z g && hits z bad r) end.
Lemma unbound_cons z bad g r : unbound_items z bad (g :: r) = if works z g then unbound_items z (unbound_items z bad [g]) r else unbound_items z bad [g].
Proof.
  cbn [unbound_items]. unfold works, in_range. destruct (Z.eqb_spec (g_mode g) 0) as [M0|M0], (Z.eqb_spec (g_mode g) 1) as [M1|M1]; try lia; cbn [andb orb negb].
  - destruct (g_id g <? fst z); cbn [andb orb negb]; [|reflexivity]. destruct (g_pools g && g_net g); reflexivity.
  - destruct (g_id g <? snd z); cbn [andb orb negb]; [|reflexivity]. destruct (g_pools g && g_net g); reflexivity.
  - reflexivity.
Qed.
Lemma unbound_works z bad g : works z g = true -> unbound_items z bad [g] = bad.
Proof.
  cbn [unbound_items]. unfold works, in_range. destruct (Z.eqb_spec (g_mode g) 0) as [M0|M0], (Z.eqb_spec (g_mode g) 1) as [M1|M1]; try lia; cbn [andb orb negb].
  - destruct (g_id g <? fst z); cbn [andb orb negb]; [|reflexivity]. now destruct (g_pools g && g_net g).
  - destruct (g_id g <? snd z); cbn [andb orb negb]; [|reflexivity]. now destruct (g_pools g && g_net g).
  - reflexivity.
Qed.
Lemma config_loop_ok l : forall b z hs, dims b z -> Forall cfg_ok l -> HI b hs -> hits z (b_bad b) l = false ->
  exists b', config_loop b l = Some (b', config_effects z l, negb (forallb (works z) l)) /\
    (b_bad b' = unbound_items z (b_bad b) l /\ dims b' z) /\ HI b' (hs ++ config_effects z l).
Proof.
  induction l as [|g r IH]; intros b z hs D Hok H NB.
  - cbn [config_loop config_effects forallb unbound_items negb]. exists b. rewrite app_nil_r. auto.
  - cbn [hits] in NB. apply orb_false_elim in NB as [NB1 NB2]. rewrite unbound_cons. cbn [config_loop config_effects forallb].
    inversion Hok; subst. destruct (config_item_ok b z g hs D H2 H NB1) as (b1 & E1 & [B1 D1] & I1). rewrite E1.
    destruct (works z g) eqn:W; cbn [negb andb] in *.
    + rewrite unbound_works in * by exact W. rewrite <- B1 in NB2 |- *. destruct (IH b1 z _ D1 H3 I1 NB2) as (b2 & E2 & [B2 D2] & I2). rewrite E2. exists b2. rewrite app_assoc. auto.
    + exists b1. auto.
Qed.
Lemma config_loop_dies l : forall b z hs, dims b z -> Forall cfg_ok l -> HI b hs -> hits z (b_bad b) l = true ->
  exists b' os, config_loop b l = Some (b', os ++ [MTerminate], true).
Proof.
  induction l as [|g r IH]; intros b z hs D Hok H NB; [discriminate|]. cbn [hits] in NB. inversion Hok; subst. cbn [config_loop].
  destruct (replaces z (b_bad b) g) eqn:R.
  - exists b, []. unfold replaces in R. apply andb_prop in R as [R R3]. apply andb_prop in R as [R1 R2]. unfold config_item, is_bad. rewrite R1.
    pose proof D as (D1 & _ & D3 & _). unfold is_u32 in *. destruct (Z.leb_spec (Z.of_nat (length (b_servers b))) (g_id g)); [lia|]. rewrite R3. reflexivity.
  - cbn [orb] in NB. apply andb_prop in NB as [W NB]. destruct (config_item_ok b z g hs D H2 H R) as (b1 & E1 & [B1 D1] & I1). rewrite E1, W.
    rewrite unbound_works in B1 by exact W. cbn [negb]. rewrite <- B1 in NB. rewrite W in I1. destruct (IH b1 z _ D1 H3 I1 NB) as (b' & os & E). rewrite E.
    exists b', (config_effect z g ++ os). now rewrite app_assoc.
Qed.
Definition config_out (z : Z * Z) (l : list cfg) : list mout :=
  config_effects z l ++ if forallb (works z) l then [MConfigRsp (map (fun g => (g_id g, true)) l)] else [].
Lemma config_ok l b z hs : dims b z -> Forall cfg_ok l -> HI b hs -> hits z (b_bad b) l = false ->
  exists b', config b l = Some (b', config_out z l) /\ (b_bad b' = unbound_items z (b_bad b) l /\ dims b' z) /\ HI b' (hs ++ config_out z l).
Proof.
  intros D Hok H NB. destruct (config_loop_ok l b z hs D Hok H NB) as (b' & E & D' & H'). unfold config, config_out. rewrite E.
  destruct (forallb (works z) l); cbn [negb]; exists b'.
  - split; [reflexivity|]. split; [exact D'|]. rewrite app_assoc. now apply hi_inert.
  - rewrite app_nil_r. auto.
Qed.
Lemma alive_end os : alive (os ++ [MTerminate]) = false.
Proof. unfold alive. rewrite forallb_app. cbn [forallb]. apply andb_false_r. Qed.
Lemma config_alive l b z hs b' os : dims b z -> Forall cfg_ok l -> HI b hs -> config b l = Some (b', os) -> alive os = true ->
  os = config_out z l /\ (b_bad b' = unbound_items z (b_bad b) l /\ dims b' z) /\ HI b' (hs ++ os).
Proof.
  intros D Hok H E A. destruct (hits z (b_bad b) l) eqn:NB.
  - destruct (config_loop_dies l b z hs D Hok H NB) as (b1 & o1 & E1). unfold config in E. rewrite E1 in E. injection E as <- <-. now rewrite alive_end in A.
  - destruct (config_ok l b z hs D Hok H NB) as (b1 & E1 & D1 & H1). rewrite E1 in E. injection E as <- <-. auto.
Qed.

(** * Batches *)
Lemma req_defined m0 b0 es k tr it : length b0 = 512%nat -> bytes_ok b0 -> Forall ev_ok (es ++ [EReq it]) ->
  boot m0 b0 es = Some (k, tr) -> exists k' os, ac_step k (EReq it) = Some (k', os).
Proof.
  intros Hl Hb Hev E. assert (En : enabled k (EReq it) = true).
  { cbn [enabled]. apply Forall_app in Hev as [_ Hev]. inversion Hev; subst. cbn [ev_ok] in H1. destruct H1 as (_ & _ & _ & _ & _ & _ & _ & H). lia. }
  destruct (step_back m0 b0 es (EReq it) k tr Hl Hb Hev E En) as (d & HC & HI & R & Hback).
  assert (D : exists d' os, lc_step d (EReq it) = Some (d', os)).
  { unfold lc_step, c_step, on_req. rewrite (enabled_sim _ _ _ HC) in En. cbn [enabled] in En.
    unfold ls_push. destruct (length (c_store d) <? as_capacity)%nat eqn:Hc; cbn [negb]; [|eauto].
    destruct (maxAduLen <? q_nbytes (i_req it)); [eauto|]. rewrite En. cbn [negb].
    destruct (c_st d).
    1,2,6: rewrite flush_list; [eauto|cbn [set_store c_store]; rewrite app_length; cbn [length]; unfold as_capacity in *; lia].
    - destruct (transit_total (set_store d (c_store d ++ [stored it])) CSend false) as (d' & os & X & _). rewrite X. eauto.
    - eauto.
    - eauto. }
  destruct D as (d' & os & D). destruct (Hback _ _ D) as (k' & Eb & _). rewrite (boot_snoc _ _ _ _ _ _ E), En in Eb.
  unfold ac_step. destruct (c_step as_empty as_front as_pop as_push k (EReq it)) as [[k1 o1]|]; [eauto|discriminate].
Qed.
Lemma item_ev it : item_ok it -> ev_ok (EReq it).
Proof. intros (_ & H & _). exact H. Qed.
Lemma item_enabled {S} (k : client S) it : item_ok it -> enabled k (EReq it) = true.
Proof. intros (_ & H & _). destruct H as (_ & _ & _ & _ & _ & _ & _ & H). cbn [enabled]. lia. Qed.

Lemma cli_rel_known s h : cli_rel s h -> (match s with Some _ => true | None => false end) = (match h with Some _ => true | None => false end).
Proof. destruct s, h; cbn [cli_rel]; intros H; solve [reflexivity|contradiction]. Qed.

Lemma F2_impl {A B} (P Q : A -> B -> Prop) l m : (forall x y, P x y -> Q x y) -> Forall2 P l m -> Forall2 Q l m.
Proof. intros H. induction 1; constructor; auto. Qed.

Lemma adu_loop_ok its : forall b z hs, dims b z -> Forall item_ok its -> HI b hs ->
  exists b' os, adu_loop b its = Some (b', os) /\ (b_bad b' = b_bad b /\ dims b' z) /\ HI b' (hs ++ os) /\
    Forall2 (fun it o => item_done (match chist (i_client it) hs with Some _ => true | None => false end) it o) its os.
Proof.
  induction its as [|it r IH]; intros b z hs D Hok H; cbn [adu_loop].
  - exists b, []. rewrite app_nil_r. auto.
  - inversion Hok; subst. pose proof H2 as Hit. destruct H2 as (Hid & _). unfold is_u32 in Hid.
    destruct (H (i_client it) ltac:(lia)) as [Hc _]. pose proof (cli_rel_known _ _ Hc) as Hk.
    destruct (nth_slot (b_clients b) (i_client it)) as [k|] eqn:Es.
    + destruct (chist (i_client it) hs) as [t|] eqn:Et; [|discriminate]. cbn [cli_rel] in Hc.
      destruct Hc as (m0 & b0 & Hl & Hb & Hev & Eb).
      destruct (req_defined m0 b0 (map fst t) k t it Hl Hb) as (k' & o & Ek); [apply Forall_app; split; [auto|repeat constructor; now apply item_ev]|exact Eb|].
      rewrite Ek. assert (H4 := hi_cli b hs (i_client it) k (EReq it) k' o H ltac:(lia) Es (item_enabled k it Hit) (item_ev it Hit) Ek).
      destruct (IH _ z _ (dims_client _ z (i_client it) k' D) H3 H4) as (b' & os & E & D' & I' & F). rewrite E.
      exists b', (MCli (i_client it) (EReq it) o :: os). split; [reflexivity|]. split; [exact D'|].
      split; [rewrite <- app_assoc in I'; exact I'|]. constructor; [rewrite Et; cbn; eauto|].
      eapply F2_impl; [|exact F]. intros x y Hxy. cbn beta in Hxy. rewrite chist_snoc in Hxy. cbn [client_hist] in Hxy.
      destruct (Z.eqb_spec (i_client it) (i_client x)) as [Q|Q]; [|exact Hxy]. rewrite <- Q in *. rewrite Et in *. exact Hxy.
    + destruct (chist (i_client it) hs) as [t|] eqn:Et; [discriminate|].
      assert (H4 : HI b (hs ++ [MNoClient (i_client it) (q_tid (i_req it))])) by now apply hi_inert.
      destruct (IH b z _ D H3 H4) as (b' & os & E & D' & I' & F). rewrite E.
      exists b', (MNoClient (i_client it) (q_tid (i_req it)) :: os). split; [reflexivity|]. split; [exact D'|].
      split; [rewrite <- app_assoc in I'; exact I'|]. constructor; [rewrite Et; reflexivity|].
      eapply F2_impl; [|exact F]. intros x y Hxy. cbn beta in Hxy. rewrite chist_snoc in Hxy. exact Hxy.
Qed.

(** * Histories *)
Definition MI (c : option modbus) (tr : mtrace) : Prop :=
  match c, sizes tr with
  | None, None => forall id, chist id (outs_of_run tr) = None /\ shist id (outs_of_run tr) = None
  | Some b, Some z => (b_bad b = unbound tr /\ dims b z) /\ HI b (outs_of_run tr)
  | _, _ => False
  end.
Lemma sizes_snoc tr : forall z e os, sizes_from z (tr ++ [(e, os)]) =
  match e with MvInit ns nc => Some (ns, nc) | MvRelease => None | _ => sizes_from z tr end.
Proof.
  induction tr as [|[x o] tr IH]; intros z e os; [destruct e; reflexivity|]. cbn [app sizes_from]. destruct x; rewrite IH; destruct e; reflexivity.
Qed.
Lemma unbound_snoc tr : forall z bad e os, unbound_from z bad (tr ++ [(e, os)]) =
  match e with
  | MvInit _ _ | MvRelease => []
  | MvConfig l => match sizes_from z tr with Some z0 => unbound_items z0 (unbound_from z bad tr) l | None => unbound_from z bad tr end
  | _ => unbound_from z bad tr
  end.
Proof.
  induction tr as [|[x o] tr IH]; intros z bad e os; [destruct e; reflexivity|]. cbn [app sizes_from unbound_from]. destruct x; rewrite IH; destruct e; reflexivity.
Qed.
Lemma outs_snoc tr e os : outs_of_run (tr ++ [(e, os)]) = outs_of_run tr ++ os.
Proof. unfold outs_of_run. rewrite flat_map_app. cbn [flat_map snd]. now rewrite app_nil_r. Qed.

Lemma mi_step c tr e c' os : MI c tr -> mev_ok e -> mb_enabled c e = true -> mb_step c e = Some (c', os) -> alive os = true -> MI c' (tr ++ [(e, os)]).
Proof.
  intros H He En Es A. unfold MI in *. unfold sizes, unbound in *. rewrite sizes_snoc, outs_snoc, unbound_snoc.
  destruct e as [ns nc| |l|m|s p sok|id x|id x].
  - cbn [mb_step] in Es. destruct (doomed c); injection Es as <- <-; [discriminate|]. cbn [mev_ok] in He. split.
    + split; [reflexivity|]. unfold dims. cbn [b_servers b_clients fst snd]. rewrite !repeat_length. tauto.
    + intros id Hid. cbn [b_clients b_servers]. rewrite !slot_none, chist_snoc, shist_snoc. cbn. auto.
  - cbn [mb_step] in Es. destruct (doomed c); injection Es as <- <-; [discriminate|]. intros id. rewrite chist_snoc, shist_snoc. auto.
  - cbn [mb_step] in Es. destruct c as [b|].
    2:{ injection Es as <- <-. rewrite app_nil_r. exact H. }
    destruct (sizes_from None tr) as [z|]; [|contradiction]. destruct H as [[B D] H]. destruct (config b l) as [[b' o]|] eqn:E; [|discriminate]. injection Es as <- <-.
    destruct (config_alive l b z _ b' o D He H E A) as (_ & D' & H'). rewrite B in D'. auto.
  - cbn [mb_step] in Es. destruct c as [b|].
    2:{ injection Es as <- <-. rewrite app_nil_r. exact H. }
    destruct (sizes_from None tr) as [z|]; [|contradiction]. destruct H as [[B D] H]. destruct (read_batch m) as [its|] eqn:Er; [|discriminate].
    destruct (adu_loop_ok its b z _ D (read_batch_ok m its He Er) H) as (b' & o & E & D' & H' & _). rewrite E in Es. injection Es as <- <-. rewrite B in D'. auto.
  - cbn [mb_step] in Es. destruct c as [b|].
    2:{ injection Es as <- <-. rewrite app_nil_r. exact H. }
    destruct (sizes_from None tr) as [z|]; [|contradiction]. destruct H as [[B D] H]. unfold srv_event in Es.
    destruct (nth_slot (b_servers b) s) as [v|] eqn:Ev.
    + destruct (srv_step v (VReply p sok)) as [[v' o]|] eqn:Eo; [|discriminate]. injection Es as <- <-. split; [split; [exact B|now apply dims_server]|].
      destruct He as [Hs Hp]. unfold is_u32 in Hs. exact (hi_srv b _ s v (VReply p sok) v' o H (proj1 Hs) Ev eq_refl Hp Eo).
    + injection Es as <- <-. rewrite app_nil_r. auto.
  - cbn [mb_step] in Es. destruct c as [b|]; [|discriminate].
    destruct (sizes_from None tr) as [z|]; [|contradiction]. destruct H as [[B D] H]. unfold cli_event in Es. cbn [mb_enabled] in En.
    destruct (nth_slot (b_clients b) id) as [v|] eqn:Ev; [|discriminate].
    destruct (ac_step v x) as [[v' o]|] eqn:Eo; [|discriminate]. injection Es as <- <-. split; [split; [exact B|now apply dims_client]|].
    destruct He as (Hs & _ & Hp). unfold is_u32 in Hs. eapply hi_cli; eauto; lia.
  - cbn [mb_step] in Es. destruct c as [b|]; [|discriminate].
    destruct (sizes_from None tr) as [z|]; [|contradiction]. destruct H as [[B D] H]. unfold srv_event in Es. cbn [mb_enabled] in En.
    destruct (nth_slot (b_servers b) id) as [v|] eqn:Ev; [|discriminate].
    destruct (srv_step v x) as [[v' o]|] eqn:Eo; [|discriminate]. injection Es as <- <-. split; [split; [exact B|now apply dims_server]|].
    destruct He as (Hs & _ & Hp). unfold is_u32 in Hs. eapply hi_srv; eauto; lia.
Qed.
Lemma mreach_inv c tr : mreach c tr -> MI c tr.
Proof. induction 1; [cbn; auto|eapply mi_step; eauto]. Qed.
