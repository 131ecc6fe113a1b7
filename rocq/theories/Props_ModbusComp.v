(** Theorems about the Modbus component and its batch messages, C53, C54, C89-C92. *)
From Verif Require Import Base MsgStorageModel ModbusCodecModel ModbusCodecSpec ModbusClientModel ModbusClientSpec ModbusClientFacts
  ModbusServerModel ModbusServerSpec ModbusCompModel ModbusCompSpec ModbusCompProofs ModbusCompRuns ModbusCompFacts
  Props_ModbusClient Props_ModbusServer.
Local Open Scope Z_scope.

(** * Material for the examples *)
Definition rq (client tid : Z) (data : list Z) : item := mkItem client (mkReq tid 3 17 0 2 (Z.of_nat (length data)) data).
Definition three : list item := [rq 0 5 []; rq 7 6 [1; 2; 3]; rq 0 8 (repeat 9 40)].
Lemma rq_ok c t d : 0 <= c < 4294967296 -> 0 <= t < 4294967296 -> forallb byteb d = true -> Z.of_nat (length d) < 65536 -> item_ok (rq c t d).
Proof.
  intros. unfold item_ok, req_ok, is_u32, is_u16, is_byte, rq. cbn [i_client i_req q_tid q_func q_addr q_start q_nitems q_nbytes q_data].
  split; [lia|]. split; [|reflexivity]. do 6 (split; [lia|]). split; [now apply byteb_ok|lia].
Qed.
Lemma three_ok : Forall item_ok three.
Proof. unfold three. repeat (constructor; [apply rq_ok; first [lia|reflexivity]|]). constructor. Qed.
Definition store0 : list Z := repeat 165 4096.
Lemma store0_ok : bytes_ok store0.
Proof. apply byteb_ok. vm_compute. reflexivity. Qed.
Definition msg_of (its : list item) : list Z := match write_batch store0 its with Some m => firstn (total its) m | None => [] end.
Definition gCli (id : Z) (net : bool) : cfg := mkCfg id 1 m_init zb zq true net.
Definition gSrv (id : Z) (net : bool) : cfg := mkCfg id 0 m_init zb zq true net.
Lemma gCli_ok id net : 0 <= id < 4294967296 -> cfg_ok (gCli id net).
Proof. intros. split; [unfold is_u32; cbn; lia|exact zmem]. Qed.
Lemma gSrv_ok id net : 0 <= id < 4294967296 -> cfg_ok (gSrv id net).
Proof. intros. split; [unfold is_u32; cbn; lia|exact zmem]. Qed.

(** * C54 *)
(** Any batch that fits its buffer, whatever the buffer held before: writing it succeeds; the octets below the item count
    (the message's type information) are untouched; and from any copy of the first [total] octets, item [i] is found behind
    the room taken by the items before it, at a multiple of 16 from the first, and reads back as written; the size reported is the
    sum of the rooms plus the 16 octets of the header. *)
Theorem C54_walk m its : Forall item_ok its -> Z.of_nat (length its) < 65536 -> (total its <= length m)%nat ->
  exists m', write_batch m its = Some m' /\ length m' = length m /\ firstn 8 m' = firstn 8 m /\
    forall tail, let copy := firstn (total its) m' ++ tail in
      read_batch copy = Some its /\ msg_size copy = Some (Z.of_nat (total its)) /\
      forall i it, nth_error its i = Some it ->
        exists k, item_off copy i = Some (12 + 16 * k)%nat /\ (16 * k)%nat = rooms (firstn i its) /\ rd_item copy (12 + 16 * k) = Some it.
Proof.
  intros Hok Hn H. destruct (batch_ok m its Hok Hn H) as (m' & E & L & P & A). exists m'. do 3 (split; [assumption|]).
  intros tail copy. destruct (A tail) as [A1 A2]. fold copy in A1, A2. split; [|split].
  - unfold read_batch. rewrite A1. cbn [obind]. rewrite Nat2Z.id. exact (read_laid its [] copy Hok A2).
  - unfold msg_size. rewrite A1, Nat2Z.id. pose proof (rooms_bound its Hok).
    rewrite size_laid by (auto; unfold msgSize; lia). f_equal. unfold msgSize, total. lia.
  - intros i it Hi. assert (S : its = firstn i its ++ it :: skipn (S i) its).
    { clear - Hi. revert its Hi. induction i as [|i IH]; intros [|x l] Hi; try discriminate; cbn in *; [congruence|]. f_equal. now apply IH. }
    assert (Li : length (firstn i its) = i) by (rewrite firstn_length; assert (i < length its)%nat by (apply nth_error_Some; congruence); lia).
    rewrite S in A2, Hok. assert (Hr : exists k, rooms (firstn i its) = (16 * k)%nat).
    { clear. induction (firstn i its) as [|x l [k IH]]; [exists 0%nat; reflexivity|]. change (rooms (x :: l)) with (room x + rooms l)%nat. rewrite IH.
      unfold room. exists ((20 + length (q_data (i_req x)) + 15) / 16 + k)%nat. lia. }
    destruct Hr as [k Hr]. exists k. pose proof (walk_laid (firstn i its) copy itemsOff it _ Hok A2) as W. rewrite Li, Hr in W.
    split; [exact W|]. split; [congruence|]. apply laid_app in A2 as [_ [A2 _]]. rewrite Hr in A2.
    apply Forall_app in Hok as [_ Hok]. inversion Hok; subst. apply at_read; assumption.
Qed.
Print Assumptions C54_walk.
Example C54_case : Forall item_ok three /\ (total three <= length store0)%nat /\ total three = 144%nat /\
  option_map (fun m => (firstn 20 m, msg_size m)) (write_batch store0 three) =
  Some ([165; 165; 165; 165; 165; 165; 165; 165; 3; 0; 165; 165; 0; 0; 0; 0; 5; 0; 0; 0], Some 144).
Proof. split; [exact three_ok|]. split; [vm_compute; lia|]. split; vm_compute; reflexivity. Qed.

(** * C92 *)
(** A batch can be written entirely inside the 4096-octet message store and still report, and be copied with, a size
    beyond the store. *)
Definition many : list item := repeat (rq 0 1 []) 128.
Theorem C92_size_refuted : exists m', Forall item_ok many /\ length store0 = 4096%nat /\ write_batch store0 many = Some m' /\ msg_size m' = Some 4112.
Proof.
  assert (X : match write_batch store0 many with Some m => msg_size m | None => None end = Some 4112) by (vm_compute; reflexivity).
  revert X. generalize (write_batch store0 many) as o. intros [m'|] X; [|discriminate]. exists m'.
  split; [apply Forall_forall; intros x Hx; apply repeat_spec in Hx; subst; apply rq_ok; first [lia|reflexivity]|]. split; [reflexivity|]. split; [reflexivity|exact X].
Qed.
Print Assumptions C92_size_refuted.
(** Up to 127 items without data (and whenever the rooms add up to at most 4080) the size is within the store. *)
Theorem C92_inside_partial its m : Forall item_ok its -> Z.of_nat (length its) < 65536 -> length m = 4096%nat -> (rooms its <= 4080)%nat ->
  exists m' n, write_batch m its = Some m' /\ msg_size m' = Some n /\ n <= 4096.
Proof.
  intros Hok Hn Hm Hr. destruct (C54_walk m its Hok Hn) as (m' & E & L & _ & W); [unfold total; lia|].
  exists m', (Z.of_nat (total its)). split; [exact E|]. destruct (W (skipn (total its) m')) as (_ & W2 & _). cbn zeta in W2. rewrite firstn_skipn in W2.
  split; [exact W2|]. unfold total. lia.
Qed.
Print Assumptions C92_inside_partial.
Example C92_case : rooms (repeat (rq 0 1 []) 127) = 4064%nat.
Proof. vm_compute. reflexivity. Qed.

(** * C53 *)
(** Before the first initialisation and after a release nothing has any effect, and initialising and releasing are each answered once. *)
Theorem C53_ignored c tr e : mreach c tr -> sizes tr = None -> match e with MvInit _ _ | MvRelease => False | _ => True end ->
  mb_step c e = Some (c, []).
Proof. intros R S He. rewrite (mreach_none c tr R S). destruct e; try contradiction; reflexivity. Qed.
Print Assumptions C53_ignored.
Theorem C53_lifecycle_partial c tr ns nc : mreach c tr -> unbound tr = [] ->
  (exists b, mb_step c (MvInit ns nc) = Some (b, [MInitRsp])) /\ mb_step c MvRelease = Some (None, [MReleaseRsp]).
Proof.
  intros R U. assert (D : doomed c = false) by now apply (doomed_iff c tr R). cbn [mb_step]. rewrite D. split; [eexists; reflexivity|reflexivity].
Qed.
Print Assumptions C53_lifecycle_partial.

(** Every batch that any sender wrote into a store and that arrives as its first [total] octets is processed completely: one effect
    per item, in order; an item for a configured client is handed to it, any other is answered with an error naming its client and
    transaction. *)
Theorem C53_batch c tr z m its m' : mreach c tr -> sizes tr = Some z ->
  bytes_ok m -> Forall item_ok its -> Z.of_nat (length its) < 65536 -> (total its <= length m)%nat -> write_batch m its = Some m' ->
  exists c' os, mb_step c (MvAdu (firstn (total its) m')) = Some (c', os) /\
    Forall2 (fun it o => item_done (known (i_client it) tr) it o) its os.
Proof.
  intros R S Hm Hok Hn Ht E. destruct (mreach_some c tr z R S) as (b & -> & D & H & B).
  destruct (C54_walk m its Hok Hn Ht) as (m2 & E2 & _ & _ & W). rewrite E in E2. injection E2 as <-.
  destruct (W []) as (Rd & _). cbn zeta in Rd. rewrite app_nil_r in Rd. cbn [mb_step]. rewrite Rd.
  destruct (adu_loop_ok its b z _ D Hok H) as (b' & os & El & _ & _ & F). rewrite El. exists (Some b'), os. split; [reflexivity|exact F].
Qed.
Print Assumptions C53_batch.

(** When all connection attempts and listening sockets succeed, a configuration creates the objects it names and is answered once, with
    the ids in order. *)
Theorem C53_config_partial c tr z l : mreach c tr -> sizes tr = Some z -> Forall cfg_ok l -> forallb (works z) l = true ->
  Forall (fun g => replaces z (unbound tr) g = false) l ->
  exists c', mb_step c (MvConfig l) = Some (c', flat_map (config_effect z) l ++ [MConfigRsp (map (fun g => (g_id g, true)) l)]).
Proof.
  intros R S Hok W NB. destruct (mreach_some c tr z R S) as (b & -> & D & H & B). cbn [mb_step].
  destruct (config_ok l b z _ D Hok H) as (b' & E & _); [rewrite B; now apply hits_none|]. rewrite E. unfold config_out. rewrite W, effects_all by exact W. eauto.
Qed.
Print Assumptions C53_config_partial.

(** When one fails, the configuration is never answered and the items behind it make no difference. *)
Theorem C53_config_lost_refuted c tr z l1 g : mreach c tr -> sizes tr = Some z -> Forall cfg_ok (l1 ++ [g]) ->
  forallb (works z) l1 = true -> in_range z g = true -> g_net g = false -> Forall (fun g => replaces z (unbound tr) g = false) (l1 ++ [g]) ->
  exists c' os, (forall items, ~ In (MConfigRsp items) os) /\
    forall l2, Forall cfg_ok l2 -> mb_step c (MvConfig (l1 ++ g :: l2)) = Some (c', os).
Proof.
  intros R S Hok W Hr Hn NB. destruct (mreach_some c tr z R S) as (b & -> & D & H & B). apply Forall_app in Hok as [Hok1 Hok2]. inversion Hok2; subst. apply Forall_app in NB as [NB1 NB2]. inversion NB2 as [|? ? NB3 _]; subst.
  assert (Hg : works z g = false) by (unfold works; rewrite Hr, Hn, andb_false_r; reflexivity).
  destruct (config_loop_ok l1 b z _ D Hok1 H) as (b1 & E1 & [B1 D1] & I1); [rewrite B; now apply hits_none|].
  destruct (config_item_ok b1 z g _ D1 H2 I1) as (b2 & E2 & _); [rewrite B1, unbound_all, B by exact W; exact NB3|].
  exists (Some b2), (flat_map (config_effect z) l1 ++ config_failure g). split.
  - intros items Hi. apply in_app_or in Hi as [Hi|Hi]; [now apply effects_no_reply in Hi|now apply (effect_no_reply z) in Hi].
  - intros l2 _. cbn [mb_step]. unfold config. rewrite W, effects_all in E1 by exact W. rewrite Hg in E2. cbn [negb] in E1, E2.
    assert (L : forall l b0 o0 x o1, config_loop b0 l = Some (x, o0, false) -> config_item x g = Some (b2, o1, true) ->
      config_loop b0 (l ++ g :: l2) = Some (b2, o0 ++ o1, true)).
    { clear. induction l as [|a l IH]; intros b0 o0 x o1 A B; cbn [app config_loop] in *.
      - injection A as <- <-. rewrite B. reflexivity.
      - destruct (config_item b0 a) as [[[b3 o3] [|]]|]; try discriminate. destruct (config_loop b3 l) as [[[b4 o4] y]|] eqn:E; [|discriminate].
        injection A as -> <- ->. rewrite (IH _ _ _ _ E B). now rewrite app_assoc. }
    rewrite (L _ _ _ _ _ E1 E2). reflexivity.
Qed.
Print Assumptions C53_config_lost_refuted.

Definition run53 : list mev :=
  [MvAdu (msg_of three); MvInit 1 2; MvConfig [gSrv 0 true; gCli 0 true; gCli 9 true]; MvCli 0 EConnected; MvAdu (msg_of three);
   MvConfig [gCli 1 false; gCli 0 true]; MvRelease; MvAdu (msg_of three)].
Definition out53 : list (list mout) :=
  [[]; [MInitRsp]; [MNewServer 0; MNewClient 0; MCli 0 (EStart true) [OTimer 3000000; OConnect]; MConfigRsp [(0, true); (0, true); (9, true)]];
   [MCli 0 EConnected [OStop]];
   [MCli 0 (EReq (rq 0 5 [])) [OTimer 10000]; MNoClient 7 6; MCli 0 (EReq (rq 0 8 (repeat 9 40))) []];
   [MNewClient 1; MCli 1 (EStart false) [OTimer 3000000; OThrow]; MThrow]; [MReleaseRsp]; []].
Lemma msg_three_ok : bytes_ok (msg_of three).
Proof. apply byteb_ok. vm_compute. reflexivity. Qed.
Lemma run53_ok : Forall mev_ok run53.
Proof.
  unfold run53. apply Forall_cons; [exact msg_three_ok|]. apply Forall_cons; [split; unfold is_u32; lia|].
  apply Forall_cons; [do 3 (apply Forall_cons; [first [apply gSrv_ok; lia|apply gCli_ok; lia]|]); apply Forall_nil|].
  apply Forall_cons; [split; [unfold is_u32; lia|split; [reflexivity|exact I]]|]. apply Forall_cons; [exact msg_three_ok|].
  apply Forall_cons; [do 2 (apply Forall_cons; [apply gCli_ok; lia|]); apply Forall_nil|]. apply Forall_cons; [exact I|].
  apply Forall_cons; [exact msg_three_ok|]. apply Forall_nil.
Qed.
Example C53_case : exists c, mreach c (combine run53 out53).
Proof. apply mouts_reach; [exact run53_ok|vm_compute; reflexivity|reflexivity]. Qed.
(** The state in which the third configuration item list of [run53] fails. *)
Example C53_lost_case : exists c, mreach c (combine (firstn 5 run53) (firstn 5 out53)) /\ sizes (combine (firstn 5 run53) (firstn 5 out53)) = Some (1, 2) /\
  in_range (1, 2) (gCli 1 false) = true.
Proof.
  destruct (mouts_reach (firstn 5 run53) (firstn 5 out53)) as [c R]; [|vm_compute; reflexivity|reflexivity|exists c; split; [exact R|split; vm_compute; reflexivity]].
  pose proof run53_ok as H. rewrite <- (firstn_skipn 5 run53) in H. now apply Forall_app in H as [H _].
Qed.

(** * C116 *)
(** A server that could not listen (its address is in use, say) is a trap: releasing or initialising the component afterwards, or
    configuring the same server again once the address is free, ends the process. *)
Theorem C116_terminates_refuted c tr z id : mreach c tr -> sizes tr = Some z -> In id (unbound tr) ->
  mb_step c MvRelease = Some (c, [MTerminate]) /\ (forall ns nc, mb_step c (MvInit ns nc) = Some (c, [MTerminate])) /\
  forall g, g_mode g = 0 -> g_id g = id -> g_id g < fst z -> 0 <= g_id g -> mb_step c (MvConfig [g]) = Some (c, [MTerminate]).
Proof.
  intros R S Hin. destruct (mreach_some c tr z R S) as (b & -> & D & H & B).
  assert (Hd : doomed (Some b) = true). { destruct (doomed (Some b)) eqn:E; [reflexivity|]. apply (doomed_iff _ tr R) in E. rewrite E in Hin. destruct Hin. }
  cbn [mb_step]. rewrite Hd. split; [reflexivity|]. split; [reflexivity|]. intros g M Hi Hr Hp. unfold config. cbn [config_loop]. unfold config_item. rewrite M. cbn [Z.eqb].
  destruct D as (D1 & _). destruct (Z.leb_spec (Z.of_nat (length (b_servers b))) (g_id g)); [lia|].
  replace (is_bad b (g_id g)) with true; [reflexivity|]. symmetry. unfold is_bad. apply existsb_exists. exists id. rewrite B. split; [exact Hin|]. lia.
Qed.
Print Assumptions C116_terminates_refuted.
(** Exactly these end the process: in any reachable state an input ends it only if it destroys such a server, by releasing or
    initialising the component or by configuring that server again. *)
Theorem C116_only_then_partial c tr e c' os : mreach c tr -> mev_ok e -> mb_step c e = Some (c', os) -> alive os = false ->
  unbound tr <> [] /\
  (e = MvRelease \/ (exists ns nc, e = MvInit ns nc) \/
   exists z l g, sizes tr = Some z /\ e = MvConfig l /\ In g l /\ replaces z (unbound tr) g = true).
Proof.
  intros R He Es A. assert (U : doomed c = true -> unbound tr <> []).
  { intros Hd E. apply (doomed_iff c tr R) in E. congruence. }
  destruct e as [ns nc| |l|m|s p sok|id x|id x].
  - cbn [mb_step] in Es. destruct (doomed c); [|injection Es as _ <-; discriminate]. split; [now apply U|]. right. left. eauto.
  - cbn [mb_step] in Es. destruct (doomed c); [|injection Es as _ <-; discriminate]. split; [now apply U|]. now left.
  - cbn [mb_step] in Es. destruct c as [b|]; [|injection Es as _ <-; discriminate]. destruct (sizes tr) as [z|] eqn:S.
    2:{ pose proof (mreach_none _ tr R S). discriminate. }
    destruct (mreach_some _ tr z R S) as (b0 & Q & D & H & B). injection Q as <-. destruct (hits z (b_bad b) l) eqn:NB.
    + rewrite B in NB. assert (X : exists g, In g l /\ replaces z (unbound tr) g = true).
      { clear - NB. induction l as [|g r IH]; [discriminate|]. cbn [hits] in NB. apply orb_prop in NB as [NB|NB]; [exists g; split; [now left|exact NB]|].
        apply andb_prop in NB as [_ NB]. destruct (IH NB) as (x & Hx & Hr). exists x. split; [now right|exact Hr]. }
      destruct X as (g & Hg & Hr). split; [|right; right; exists z, l, g; auto]. intros E. rewrite E in Hr. unfold replaces in Hr. cbn [existsb] in Hr.
      rewrite andb_false_r in Hr. discriminate.
    + destruct (config_ok l b z _ D He H NB) as (b1 & E1 & _). rewrite E1 in Es. injection Es as _ <-. now rewrite config_out_alive in A.
  - cbn [mb_step] in Es. destruct c as [b|]; [|injection Es as _ <-; discriminate]. destruct (read_batch m) as [its|]; [|discriminate].
    destruct (adu_loop b its) as [[b' o]|] eqn:E; [|discriminate]. injection Es as _ <-. now rewrite (adu_alive its b b' o E) in A.
  - cbn [mb_step] in Es. destruct c as [b|]; [|injection Es as _ <-; discriminate]. unfold srv_event in Es.
    destruct (nth_slot (b_servers b) s) as [v|]; [|injection Es as _ <-; discriminate].
    destruct (srv_step v (VReply p sok)) as [[v' o]|]; [|discriminate]. injection Es as _ <-. discriminate.
  - cbn [mb_step] in Es. destruct c as [b|]; [|injection Es as _ <-; discriminate]. unfold cli_event in Es.
    destruct (nth_slot (b_clients b) id) as [v|]; [|injection Es as _ <-; discriminate].
    destruct (ac_step v x) as [[v' o]|]; [|discriminate]. injection Es as _ <-. discriminate.
  - cbn [mb_step] in Es. destruct c as [b|]; [|injection Es as _ <-; discriminate]. unfold srv_event in Es.
    destruct (nth_slot (b_servers b) id) as [v|]; [|injection Es as _ <-; discriminate].
    destruct (srv_step v x) as [[v' o]|]; [|discriminate]. injection Es as _ <-. discriminate.
Qed.
Print Assumptions C116_only_then_partial.
(** The address of server 0 is in use; the component is released. *)
Definition run116 : list mev := [MvInit 1 1; MvConfig [gSrv 0 false; gCli 0 true]].
Definition out116 : list (list mout) := [[MInitRsp]; [MNewServer 0; MSrv 0 VStop []; MThrow]].
Example C116_case : exists c, mreach c (combine run116 out116) /\ unbound (combine run116 out116) = [0] /\ sizes (combine run116 out116) = Some (1, 1) /\
  mb_step c MvRelease = Some (c, [MTerminate]).
Proof.
  destruct (mouts_reach run116 out116) as [c R]; [|vm_compute; reflexivity|reflexivity|].
  - apply Forall_cons; [split; unfold is_u32; lia|]. apply Forall_cons; [|apply Forall_nil].
    apply Forall_cons; [apply gSrv_ok; lia|]. apply Forall_cons; [apply gCli_ok; lia|apply Forall_nil].
  - exists c. split; [exact R|]. do 2 (split; [reflexivity|]). exact (proj1 (C116_terminates_refuted c _ (1, 1) 0 R eq_refl (or_introl eq_refl))).
Qed.

(** * C89 *)
(** The configuration reply says success for places that do not exist, and requests to them are refused. *)
Definition run89 : list mev := [MvInit 1 1; MvConfig [gCli 9 true; gSrv 3 true]; MvAdu (msg_of [rq 9 4 []])].
Theorem C89_refuted : exists c, mreach c (combine run89 [[MInitRsp]; [MConfigRsp [(9, true); (3, true)]]; [MNoClient 9 4]]).
Proof.
  apply mouts_reach; [|vm_compute; reflexivity|reflexivity]. unfold run89. apply Forall_cons; [split; unfold is_u32; lia|].
  apply Forall_cons; [apply Forall_cons; [apply gCli_ok; lia|]; apply Forall_cons; [apply gSrv_ok; lia|]; apply Forall_nil|].
  apply Forall_cons; [apply byteb_ok; vm_compute; reflexivity|apply Forall_nil].
Qed.
Print Assumptions C89_refuted.
(** For places that exist the reply is right: afterwards the client or server is there. *)
Theorem C89_in_range_partial c tr z l c' os : mreach c tr -> sizes tr = Some z -> Forall cfg_ok l -> mb_step c (MvConfig l) = Some (c', os) ->
  (exists items, In (MConfigRsp items) os) ->
  forall g, In g l -> in_range z g = true ->
    (g_mode g = 1 -> known (g_id g) (tr ++ [(MvConfig l, os)]) = true) /\
    (g_mode g = 0 -> server_history (g_id g) (tr ++ [(MvConfig l, os)]) <> None).
Proof.
  intros R S Hok E [items Hi] g Hg Hr. destruct (mreach_some c tr z R S) as (b & -> & D & H & B). cbn [mb_step] in E.
  destruct (config b l) as [[b' o]|] eqn:E1; [|discriminate E]. injection E as _ <-.
  destruct (hits z (b_bad b) l) eqn:NB.
  { exfalso. destruct (config_loop_dies l b z _ D Hok H NB) as (b1 & o1 & E2). pose proof (config_loop_quiet l b _ _ _ E2 items) as Q.
    unfold config in E1. rewrite E2 in E1. injection E1 as _ <-. exact (Q Hi). }
  destruct (config_ok l b z _ D Hok H NB) as (b2 & E2 & _). rewrite E2 in E1. injection E1 as _ <-.
  destruct (forallb (works z) l) eqn:W.
  2:{ exfalso. unfold config_out in Hi. rewrite W, app_nil_r in Hi. clear - Hi W. induction l as [|x r IH]; [exact Hi|]. cbn [config_effects] in Hi. cbn [forallb] in W.
      destruct (works z x); [|now apply (effect_no_reply z) in Hi]. apply in_app_or in Hi as [Hi|Hi]; [now apply effect_no_reply in Hi|auto]. }
  unfold config_out. rewrite W, effects_all by exact W. apply in_split in Hg as (l1 & l2 & ->). rewrite flat_map_app. cbn [flat_map].
  unfold known, client_history, server_history. rewrite outs_snoc.
  assert (T : Forall no_reset (flat_map (config_effect z) l2)) by apply effects_no_reset.
  split; intros M.
  - assert (Eg : config_effect z g = [MNewClient (g_id g); MCli (g_id g) (EStart true) [OTimer 3000000; OConnect]]) by (unfold config_effect; rewrite Hr, M; reflexivity).
    rewrite Eg, !fold_left_app. cbn [fold_left client_hist]. rewrite Z.eqb_refl. cbn [option_map].
    match goal with |- match ?x with _ => _ end = true => assert (X : x <> None) end; [apply known_kept; [exact T|discriminate]|].
    match goal with |- match ?x with _ => _ end = true => destruct x; [reflexivity|congruence] end.
  - assert (Eg : config_effect z g = [MNewServer (g_id g)]) by (unfold config_effect; rewrite Hr, M; reflexivity).
    rewrite Eg, !fold_left_app. cbn [fold_left server_hist]. rewrite Z.eqb_refl. apply sknown_kept; [exact T|discriminate].
Qed.
Print Assumptions C89_in_range_partial.

(** * C90 *)
(** As long as a client is neither reconfigured nor released, and its peer behaves, each request handed to it is answered exactly once. *)
Theorem C90_exactly_once_partial c tr id t : mreach c tr -> 0 <= id -> client_history id tr = Some t -> peer_ok [] None t -> exactly_once [] t.
Proof.
  intros R Hid E P. destruct (client_history_rel c tr id t R Hid E) as (m0 & b0 & k & Hl & Hb & Hev & Eb).
  now destruct (boot_once m0 b0 _ k t Hl Hb Hev Eb P).
Qed.
Print Assumptions C90_exactly_once_partial.
(** A release (or a new initialisation) drops whatever is unanswered: nothing is answered afterwards until new requests come. *)
Theorem C90_release_refuted c tr e os tr2 c2 : mreach c tr -> (e = MvRelease /\ os = [MReleaseRsp] \/ (exists ns nc, e = MvInit ns nc) /\ os = [MInitRsp]) ->
  mreach c2 ((tr ++ [(e, os)]) ++ tr2) -> no_batch tr2 = true -> responses ([(e, os)] ++ tr2) = [].
Proof.
  intros _ He R Hb. assert (Ho : os = [MInitRsp] \/ os = [MReleaseRsp]) by (destruct He as [[_ ->]|[_ ->]]; auto).
  destruct (quiet_after tr2 c2 (tr ++ [(e, os)]) (after_reset tr e os Ho) R Hb) as [Q _].
  unfold responses, outs_of_run in *. cbn [app flat_map snd]. rewrite flat_map_app, Q. destruct Ho as [-> | ->]; reflexivity.
Qed.
Print Assumptions C90_release_refuted.
(** Two requests unanswered when the release comes. *)
Example C90_case : exists c, mreach c (combine (firstn 5 run53) (firstn 5 out53)) /\
  option_map (unanswered []) (client_history 0 (combine (firstn 5 run53) (firstn 5 out53))) = Some [(0, 5); (0, 8)] /\
  exists c2, mreach c2 ((combine (firstn 5 run53) (firstn 5 out53) ++ [(MvRelease, [MReleaseRsp])]) ++ []).
Proof.
  destruct C53_lost_case as (c & R & _). exists c. split; [exact R|]. split; [vm_compute; reflexivity|]. exists None. rewrite app_nil_r.
  econstructor; [exact R|exact I|reflexivity| |reflexivity]. cbn [mb_step].
  replace (doomed c) with false; [reflexivity|]. symmetry. apply (doomed_iff c _ R). vm_compute. reflexivity.
Qed.

(** * C91 *)
(** Each client behaves as if it were alone: since its configuration it ran as a Modbus client does by itself (so everything proved of
    clients holds of it), was handed only requests carrying its index, and answered only those. *)
Theorem C91_client c tr id t : mreach c tr -> 0 <= id -> client_history id tr = Some t ->
  (exists m0 b0 k, length b0 = 512%nat /\ bytes_ok b0 /\ Forall ev_ok (map fst t) /\ boot m0 b0 (map fst t) = Some (k, t)) /\
  Forall (fun it => i_client it = id) (submitted t) /\ incl (flat_map (fun x => rsps (snd x)) t) (map ids (submitted t)).
Proof. intros R Hid E. split; [exact (client_history_rel c tr id t R Hid E)|exact (client_responses c tr id t R Hid E)]. Qed.
Print Assumptions C91_client.
Theorem C91_server c tr id t : mreach c tr -> 0 <= id -> server_history id tr = Some t -> exists b0 q0 v, reach b0 q0 v t.
Proof. exact (server_history_rel c tr id t). Qed.
Print Assumptions C91_server.
(** An event for one client shows only in its own history. *)
Theorem C91_isolated c tr id e c' os j : mreach c tr -> mb_step c (MvCli id e) = Some (c', os) -> j <> id ->
  client_history j (tr ++ [(MvCli id e, os)]) = client_history j tr /\ server_history j (tr ++ [(MvCli id e, os)]) = server_history j tr.
Proof.
  intros _ E Hj. unfold client_history, server_history. rewrite outs_snoc, !fold_left_app. cbn [mb_step] in E. destruct c as [b|]; [|injection E as _ <-; auto].
  unfold cli_event in E. destruct (nth_slot (b_clients b) id) as [k|]; [|injection E as _ <-; auto].
  destruct (ac_step k e) as [[k' o]|]; [|discriminate]. injection E as _ <-. cbn [fold_left client_hist server_hist].
  destruct (Z.eqb_spec id j); [congruence|auto].
Qed.
Print Assumptions C91_isolated.
Example C91_case : option_map submitted (client_history 0 (combine (firstn 5 run53) (firstn 5 out53))) = Some [rq 0 5 []; rq 0 8 (repeat 9 40)] /\
  server_history 0 (combine (firstn 5 run53) (firstn 5 out53)) = Some [].
Proof. split; vm_compute; reflexivity. Qed.
