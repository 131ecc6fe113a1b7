(** Invariants of the host model. *)
From Verif Require Import Base QueueModel QueueSpec QueueProofs PoolModel PoolSpec PoolProofs EntProofs ModbusCodecModel ModbusCodecSpec
  ModbusClientModel ModbusClientProofs UaCodecModel UaCodecSpec UaCodecProofs UaCodecLocal UaTcpModel UaTcpSpec UaTcpProofs UaTcpRuns UaTcpFacts
  OverloadModel OverloadSpec.
Local Open Scope Z_scope.

Lemma conn_at_inv v u c : conn_at v u = Some c -> 1 <= u <= 32 /\ conn_of v u = Some c.
Proof. unfold conn_at. destruct (Z.leb_spec 1 u), (Z.leb_spec u 32); cbn [andb]; try discriminate. auto. Qed.
Lemma conn_at_of v u : 1 <= u <= 32 -> conn_at v u = conn_of v u.
Proof. intros H. unfold conn_at. destruct (Z.leb_spec 1 u), (Z.leb_spec u 32); try lia. reflexivity. Qed.

(** ** One event of the transport and one of its connections *)
Lemma on_other v uid k v' os tr tr' u : TInv v tr -> TInv v' tr' -> 1 <= uid <= 32 -> tsrv_on v uid k = Some (v', os) -> 1 <= u <= 32 -> u <> uid ->
  conn_of v' u = conn_of v u.
Proof.
  intros I I' Hu H Hv Hne. destruct (conn_inv v tr uid I Hu) as (c & _ & _ & En & Eg). unfold tsrv_on in H. rewrite Eg, En in H.
  destruct (k c) as [[c' o]|]; [|discriminate]. destruct (tsrv_release (d_pool v) o) as [p|]; [|discriminate]. apply some2 in H as (Ev & _).
  destruct (conn_inv v tr u I Hv) as (x & Ex & _ & Nx & _). destruct (conn_inv v' tr' u I' Hv) as (y & Ey & _ & Ny & _).
  rewrite Ex, Ey. subst v'. cbn [d_conn] in Ny. rewrite nth_error_upd_neq in Ny by lia. congruence.
Qed.

Lemma receive_err c r : t_link c = Some true -> 1024 < Z.of_nat (k_head (t_rx c)) \/ r = RxErr -> u_receive c r = Some (c, UrError).
Proof.
  intros Hk H. unfold u_receive. destruct (Z.ltb_spec 1024 (Z.of_nat (k_head (t_rx c)))); [reflexivity|]. destruct H as [H| ->]; [lia|]. now rewrite Hk.
Qed.

(** Serving on after data means: the read was made, and the link is still there. *)
Lemma data_link uid c wv r w c' os : TOK uid c wv -> t_link c = Some true -> lrx_ok r -> t_st c <> UInit -> u_data uid c r w = Some (c', os) -> t_st c' <> UInit ->
  t_link c' = Some true /\ Z.of_nat (k_head (t_rx c)) <= 1024 /\ r <> RxErr.
Proof.
  intros [HL HB HS HR] Hk Hr Hst H Hn. specialize (HR Hst). pose proof (receive_err c r Hk) as RE.
  assert (G : 1024 < Z.of_nat (k_head (t_rx c)) \/ r = RxErr -> False).
  { intros X. specialize (RE X). unfold u_data, u_hello, u_secured in H. rewrite RE in H. destruct (t_st c) eqn:Est; [congruence| |]; cbn [u_then app] in H.
    - destruct HS as (_ & Ht & _). rewrite (tr_init uid c (Some uaTimeout)) in H by congruence. apply some2 in H as (<- & _). cbn in Hn. congruence.
    - destruct HS as (_ & Ht & _). rewrite (fail_eq uid c (Some uaTimeout)) in H by congruence. apply some2 in H as (<- & _). cbn in Hn. congruence. }
  split; [|split; [|intros ->; apply G; now right]]. 2:{ destruct (Z.ltb_spec 1024 (Z.of_nat (k_head (t_rx c)))); [|lia]. exfalso. apply G. now left. }
  clear RE G. unfold u_data in H. destruct (t_st c) eqn:Est; [congruence| |].
  - destruct (u_hello uid c r w) as [[[c1 o] res]|] eqn:E; [|discriminate].
    pose proof (hello_ok uid c _ r w c1 o res HL HB HR Hk Hr E) as (S & _). destruct S as [S1 S2 S3 S4 S5 S6]. destruct HS as (_ & Ht & _).
    destruct res.
    + apply some2 in H as (<- & _). congruence.
    + unfold u_then in H. rewrite (tr_conn uid c1 (Some uaTimeout)) in H by congruence. apply some2 in H as (<- & _). cbn. congruence.
    + unfold u_then in H. rewrite (tr_init uid c1 (Some uaTimeout)) in H by congruence. apply some2 in H as (<- & _). cbn in Hn. congruence.
    + apply some2 in H as (<- & _). congruence.
  - destruct (u_secured uid c r) as [[[c1 o] res]|] eqn:E; [|discriminate].
    pose proof (secured_ok uid c _ r c1 o res HL HB HR Hk Hr E) as (S & _). destruct S as [S1 S2 S3 S4 S5 S6]. destruct HS as (_ & Ht & _).
    destruct res.
    + apply some2 in H as (<- & _). congruence.
    + unfold u_then, u_arm in H. rewrite S2, Ht in H. apply some2 in H as (<- & _). cbn. congruence.
    + cbn [u_then] in H. rewrite (fail_eq uid c1 (Some uaTimeout)) in H by congruence. apply some2 in H as (<- & _). cbn in Hn. congruence.
    + apply some2 in H as (<- & _). congruence.
Qed.
Lemma msg_link uid k c wv m w c' os : TOK uid c wv -> umsg_ok m -> u_msg uid k c m w = Some (c', os) -> t_st c' <> UInit ->
  t_st c <> UInit /\ t_link c' = t_link c.
Proof.
  intros [HL HB HS HR] Hm H Hn. unfold u_msg in H. destruct (t_st c) eqn:Est; try (apply some2 in H as (<- & _); split; congruence).
  destruct (u_message uid k c m w) as [[[c1 o] res]|] eqn:E; [|discriminate].
  pose proof (message_ok uid k c m w c1 o res Hm E) as (S1 & S2 & S3 & S4 & S5 & _). destruct HS as (_ & Ht & _).
  split; [congruence|]. destruct res; [|apply some2 in H as (<- & _); congruence| |]; exfalso;
    cbn [u_then] in H; rewrite (fail_eq uid c1 (Some uaTimeout)) in H by congruence; apply some2 in H as (<- & _); cbn in Hn; congruence.
Qed.
Lemma release_link uid c wv c' os : TOK uid c wv -> u_release uid c = Some (c', os) -> t_st c' <> UInit -> c' = c.
Proof.
  intros [HL HB HS HR] H Hn. unfold u_release in H. destruct (t_st c) eqn:Est; try (now apply some2 in H as (<- & _)).
  destruct HS as (_ & Ht & _). rewrite (tr_init uid c (Some uaTimeout)) in H by congruence. apply some2 in H as (<- & _). cbn in Hn. congruence.
Qed.
Lemma timer_ends uid c wv c' os : TOK uid c wv -> t_st c <> UInit -> u_timer uid c = Some (c', os) -> t_st c' = UInit.
Proof.
  intros [HL HB HS HR] Hst H. unfold u_timer in H. cbn [z_timer t_st] in H. destruct (t_st c) eqn:Est; [congruence| |]; destruct HS as (_ & Ht & _).
  - rewrite (tr_init uid _ None) in H; [|cbn; congruence|cbn; now rewrite Ht]. apply some2 in H as (<- & _). reflexivity.
  - rewrite (fail_eq uid _ None) in H; [|cbn; congruence|cbn; now rewrite Ht]. apply some2 in H as (<- & _). reflexivity.
Qed.

(** A connection that serves after an event of the transport. *)
Inductive kept (v : tserver) (e : tev) (os : list uout) (u : Z) (c' : tconn) : Prop :=
| kp_same : target e <> Some u -> conn_at v u = Some c' -> Forall (fun o => ~ uabout u o \/ o = UThrow) os -> kept v e os u c'
| kp_self c : target e = Some u -> conn_at v u = Some c -> t_st c <> UInit -> existsb (is_ufree u) os = false -> Forall (uabout u) os ->
    (match e with
     | EvAccept _ _ _ | EvTimer _ => False
     | EvData _ r w => t_link c = Some true /\ t_link c' = Some true /\ Z.of_nat (k_head (t_rx c)) <= 1024 /\ r <> RxErr
     | EvError _ => True
     | EvMsg _ _ _ | EvRelease _ => t_link c' = t_link c
     end) -> kept v e os u c'
| kp_begun : e = EvAccept true true true -> os = [UArm u 30000000] -> t_link c' = Some true -> (forall c, conn_at v u = Some c -> t_st c = UInit) -> kept v e os u c'.

Lemma other_about t u os : Forall (uabout t) os -> u <> t -> Forall (fun o => ~ uabout u o \/ o = UThrow) os.
Proof. intros H N. apply (Forall_impl _) with (2 := H). intros o Ho. destruct o; cbn in *; auto; left; congruence. Qed.

Lemma accept_kept v tr tok v' os tr' u c' : TInv v tr -> TInv v' tr' -> tsrv_step v (EvAccept true true tok) = Some (v', os) -> 1 <= u <= 32 ->
  conn_of v' u = Some c' -> t_st c' <> UInit -> kept v (EvAccept true true tok) os u c'.
Proof.
  intros I I' S Hu Ec Hn. destruct (conn_inv v tr u I Hu) as (x & Ex & _ & Nx & _). destruct (conn_inv v' _ u I' Hu) as (y & Ey & _ & Ny & _).
  rewrite Ec in Ey. injection Ey as <-. cbn [tsrv_step andb negb] in S. destruct c32 as (C1 & C2 & C3).
  destruct (own_alloc _ _ _ C1 C2 _ _ _ (ti_own _ _ I)) as [(_ & p' & Ep & _)|(Hf & p' & i & c & Ep & Ei & Ha & _ & _ & Eg)]; rewrite Ep in S.
  - apply some2 in S as (<- & <-). cbn [d_conn] in Ny. apply kp_same; [discriminate|rewrite conn_at_of by auto; congruence|constructor].
  - set (t := Z.of_nat i + 1) in *. assert (Hi : (i < 32)%nat) by (rewrite <- (own_len _ _ _ _ _ _ (ti_own _ _ I)); apply nth_error_Some; congruence).
    destruct (conn_inv v tr t I ltac:(lia)) as (z & Ez & Tz & Nz & Gz). replace (Z.to_nat (t - 1)) with i in * by lia. rewrite Ei in Nz. injection Nz as <-.
    assert (Hini : t_st c = UInit) by (pose proof (uact_spec c) as X; now rewrite Ha in X).
    unfold tsrv_on in S. cbn [d_pool d_conn] in S. rewrite Eg, Gz, Ei in S.
    assert (Ea : u_accept t c tok = if tok then Some (mkT UHello (Some (Some uaTimeout)) (Some true) (mkSdu 0 0 (k_pkt (t_rx c))) (t_chan c), [UArm t uaTimeout])
                                   else Some (z_link c (Some true), [UThrow])).
    { unfold u_accept. rewrite Hini. destruct tok; cbn [negb]; [|reflexivity]. rewrite tr_hello; [reflexivity|exact Hini|reflexivity]. }
    rewrite Ea in S. destruct tok; cbn [tsrv_release] in S; apply some2 in S as (<- & <-); cbn [d_conn] in Ny.
    + destruct (Z.eq_dec u t) as [->|Ne].
      * replace (Z.to_nat (t - 1)) with i in Ny by lia. rewrite nth_error_upd_eq in Ny by (apply nth_error_Some; congruence). injection Ny as <-.
        apply kp_begun; [reflexivity|reflexivity|reflexivity|]. intros d Ed. rewrite conn_at_of in Ed by auto. congruence.
      * rewrite nth_error_upd_neq in Ny by lia. apply kp_same; [discriminate|rewrite conn_at_of by auto; congruence|]. constructor; [left; cbn; congruence|constructor].
    + destruct (Z.eq_dec u t) as [->|Ne].
      * replace (Z.to_nat (t - 1)) with i in Ny by lia. rewrite nth_error_upd_eq in Ny by (apply nth_error_Some; congruence). injection Ny as <-. cbn in Hn. congruence.
      * rewrite nth_error_upd_neq in Ny by lia. apply kp_same; [discriminate|rewrite conn_at_of by auto; congruence|]. constructor; [now right|constructor].
Qed.

Lemma step_kept b0 v tr e v' os u c' : ureach b0 v tr -> tev_ok e -> tsrv_enabled v e = true -> tsrv_step v e = Some (v', os) ->
  conn_at v' u = Some c' -> t_st c' <> UInit -> kept v e os u c'.
Proof.
  intros R Ok En S Ec Hn. apply conn_at_inv in Ec as [Hu Ec]. pose proof (reach_inv _ _ _ R) as I. destruct (step_inv _ _ _ _ _ I Ok En S) as [I' T].
  assert (G : forall t, target e = Some t -> 1 <= t <= 32 -> Forall (uabout t) os ->
     (exists k, tsrv_on v t k = Some (v', os)) -> u <> t -> kept v e os u c').
  { intros t Et Ht Ha (k & Ek) Ne. apply kp_same; [congruence| |now apply (other_about t)]. rewrite conn_at_of by auto. rewrite <- Ec. symmetry. eapply on_other; eauto. }
  destruct T as [e t k c c2 v' os Et Ht Ec1 Ec2 HT HQ Ek Ek'|b1 b2 tok v' os Hb -> ->|tok v' os Hl ->|t v' os Hl Ht Hnl ->|t v' os Hl Ht Hnl ->].
  - destruct (Z.eq_dec u t) as [->|Ne].
    2:{ apply (G t Et Ht (uq_about _ _ _ _ HQ)); [|exact Ne]. destruct e as [? ? ?|? ? ?|?|?|? ? ?|?]; cbn [target] in Et; try discriminate; injection Et as Et; cbn [tsrv_step] in S; try rewrite Et in S; eauto. }
    rewrite Ec in Ec2. injection Ec2 as <-. clear G.
    assert (Hst : t_st c <> UInit) by (intros X; apply Hn, (uq_idle _ _ _ _ HQ), X).
    apply (kp_self _ _ _ _ _ c Et); [now rewrite conn_at_of|exact Hst| |exact (uq_about _ _ _ _ HQ)|].
    { pose proof (uq_free _ _ _ _ HQ) as F. pose proof (ust_spec (t_st c')) as X. destruct (ust_eqb (t_st c') UInit); [congruence|]. cbn [andb] in F.
      apply not_true_is_false. intros Y. apply existsb_exists in Y as (o & Hi & Ho). assert (Z : In o (filter is_ufree_any os)) by (apply filter_In; split; [auto|destruct o; try discriminate; reflexivity]).
      rewrite F in Z. destruct Z. }
    subst k. destruct e as [? ? ?|x r w|x|x|kd m w|x]; cbn [target] in Et; try discriminate; injection Et as Et; cbn beta in Ek; try (rewrite Et in *).
    + pose proof (enabled_link _ _ _ _ _ Ec1 En) as Hk. split; [exact Hk|]. exact (data_link t c _ r w c' os HT Hk Ok Hst Ek Hn).
    + exact Logic.I.
    + apply Hn. exact (timer_ends t c _ c' os HT Hst Ek).
    + exact (proj2 (msg_link _ kd c _ m w c' os HT Ok Ek Hn)).
    + now rewrite (release_link t c _ c' os HT Ek Hn).
  - apply kp_same; [discriminate|now rewrite conn_at_of|]. constructor; [now right|constructor].
  - eapply accept_kept; eauto.
  - eapply accept_kept; eauto.
  - eapply accept_kept; eauto.
Qed.

(** ** The kernel's side *)
Lemma kset_eq f u k : kset f u k u = k.
Proof. unfold kset. now rewrite Z.eqb_refl. Qed.
Lemma kset_ne f u k x : x <> u -> kset f u k x = f x.
Proof. intros H. unfold kset. destruct (Z.eqb_spec x u); [congruence|reflexivity]. Qed.

Lemma keff_other u os : Forall (fun o => ~ uabout u o \/ o = UThrow) os -> forall f, fold_left k_eff os f u = f u.
Proof.
  induction 1 as [|o os Ho Hs IH]; intros f; [reflexivity|]. cbn [fold_left]. rewrite IH. destruct Ho as [Ho| ->]; [|reflexivity].
  destruct o; cbn [k_eff uabout] in *; auto; apply kset_ne; congruence.
Qed.
Lemma keff_self u os : existsb (is_ufree u) os = false -> forall f,
  n_in (fold_left k_eff os f u) = n_in (f u) /\ n_edge (fold_left k_eff os f u) = n_edge (f u) /\ n_end (fold_left k_eff os f u) = n_end (f u).
Proof.
  induction os as [|o os IH]; intros H f; [auto|]. cbn [existsb] in H. apply orb_false_elim in H as [Ho H]. cbn [fold_left]. destruct (IH H (k_eff f o)) as (A & B & C).
  rewrite A, B, C. destruct o; cbn [k_eff is_ufree] in *; auto; unfold kset; destruct (Z.eqb_spec u uid); subst; auto. now rewrite Z.eqb_refl in Ho.
Qed.
Lemma keff_bytes os : forall f, (forall u, bytes_ok (n_in (f u))) -> forall u, bytes_ok (n_in (fold_left k_eff os f u)).
Proof.
  induction os as [|o os IH]; intros f H u; [apply H|]. cbn [fold_left]. apply IH. intros x.
  destruct o; cbn [k_eff]; auto; unfold kset; destruct (x =? uid) eqn:E; auto; try (apply Z.eqb_eq in E; subst; apply H). constructor.
Qed.
Lemma kset_bytes f u k : (forall x, bytes_ok (n_in (f x))) -> bytes_ok (n_in k) -> forall x, bytes_ok (n_in (kset f u k x)).
Proof. intros H K x. unfold kset. destruct (x =? u); auto. Qed.

Lemma skipn_bytes n l : bytes_ok l -> bytes_ok (skipn n l).
Proof. unfold bytes_ok. intros H. rewrite <- (firstn_skipn n l) in H. now apply Forall_app in H. Qed.
Lemma firstn_bytes' n l : bytes_ok l -> bytes_ok (firstn n l).
Proof. unfold bytes_ok. intros H. rewrite <- (firstn_skipn n l) in H. now apply Forall_app in H. Qed.

(** ** The invariant *)
Definition unread_ok (h : host) (u : Z) (w : cview) : Prop :=
  c_sent w = c_read w ++ n_in (h_sk h u) /\
  (n_in (h_sk h u) = [] \/ n_edge (h_sk h u) = true \/ In (NData u) (h_batch h) \/ c_full w = true \/ c_lost w = true).
Definition entry_ok (e : hent) : Prop := hent_ok e /\ match e with NMsg ms => forallb is_msg ms = true | _ => True end.
Record HInv (b0 : list Z) (h : host) (tr : htrace) : Prop := {
  hi_reach : ureach b0 (h_srv h) (served tr);
  hi_bytes : forall u, bytes_ok (n_in (h_sk h u));
  hi_batch : Forall entry_ok (h_batch h);
  hi_conn : forall u c, conn_at (h_srv h) u = Some c -> t_st c <> UInit -> c_broken (cview_of u tr) = false ->
    t_link c = Some true /\ unread_ok h u (cview_of u tr)
}.

Lemma served_snoc tr e o : served (tr ++ [(e, o)]) = served tr ++ o_seen o.
Proof. unfold served. rewrite flat_map_app. cbn. now rewrite app_nil_r. Qed.
Lemma cview_snoc u tr x : cview_of u (tr ++ [x]) = cview_next u (cview_of u tr) x.
Proof. unfold cview_of. now rewrite fold_left_app. Qed.

Lemma hinv_new b0 v : umem_ok b0 -> tsrv_new maxConn b0 = Some v -> HInv b0 (h_new v) [].
Proof.
  intros Hm Hn. pose proof (ur_new b0 v Hm Hn) as R. constructor; cbn [h_new h_srv h_sk h_batch].
  - exact R.
  - intros u. constructor.
  - constructor.
  - intros u c Ec Hst _. apply tsrv_new_some in Hn as (p & _ & ->). apply conn_at_inv in Ec as [_ Ec]. unfold conn_of in Ec. cbn [d_pool d_conn] in Ec.
    destruct (pool_get p u); [|discriminate]. apply nth_error_In in Ec. apply repeat_spec in Ec. subst c. now contradiction Hst.
Qed.

Lemma same_begins u e os : Forall (fun o => ~ uabout u o \/ o = UThrow) os -> begins u (e, os) = false.
Proof.
  intros H. unfold begins. cbn [fst snd]. destruct e; auto. apply not_true_is_false. intros X. apply existsb_exists in X as (o & Hi & Ho).
  rewrite Forall_forall in H. specialize (H o Hi). destruct o; try discriminate. apply Z.eqb_eq in Ho. cbn in H. destruct H as [H|H]; [contradiction|discriminate].
Qed.

(** ** One event given to the transport *)
Section Give.
Variables (b0 : list Z) (h : host) (tr : htrace) (aok tok : bool) (early : list Z) (rerr : bool) (w : option nat) (hd : hent) (rest : list hent).
Hypotheses (I : HInv b0 h tr) (Hb : h_batch h = hd :: rest).
Let ev := HNext aok tok early rerr w.

Lemma in_rest u : ~ (exists t, hd = NData t /\ t = u) -> In (NData u) (h_batch h) -> In (NData u) rest.
Proof. intros N. rewrite Hb. intros [E|E]; [|exact E]. subst hd. exfalso. apply N. eauto. Qed.
Lemma rest_ok : Forall entry_ok rest.
Proof. pose proof (hi_batch _ _ _ I) as X. rewrite Hb in X. now inversion X. Qed.
Lemma lost_data u : In (NData u) rest -> existsb (about_data u) rest = true.
Proof. intros H. apply existsb_exists. exists (NData u). split; [exact H|]. cbn. apply Z.eqb_refl. Qed.

(** Events not about connection [u]. *)
Lemma give_other e v os f rd u c' n :
  (forall t, hd = NData t -> t <> u) -> f u = h_sk h u -> (forall t x r, rd = Some (t, x, r) -> t <> u) -> (forall t, e = EvError t -> t <> u) ->
  Forall (fun o => ~ uabout u o \/ o = UThrow) os -> conn_at (h_srv h) u = Some c' -> t_st c' <> UInit ->
  let thrown := existsb is_uthrow os in
  let h' := mkH v (fold_left k_eff os f) n (if thrown then [] else rest) in
  let o := mkHo [(e, os)] rd (if thrown then rest else []) in
  c_broken (cview_next u (cview_of u tr) (ev, o)) = false -> t_link c' = Some true /\ unread_ok h' u (cview_next u (cview_of u tr) (ev, o)).
Proof.
  intros Hd Hf Hr He Ho Ec Hst thrown h' o. unfold cview_next, ev. cbn [o_seen o_read o_lost existsb orb].
  assert (Eb : begins u (e, os) = false) by now apply same_begins. subst o. cbn [o_seen existsb o_read o_lost]. rewrite Eb. cbn [orb c_broken].
  assert (Br : breaks u (e, os) = false). { unfold breaks. cbn [fst]. destruct e; auto. destruct (Z.eqb_spec uid u); auto. now apply He in e. }
  rewrite Br, !orb_false_r. intros Hbr. destruct (hi_conn _ _ _ I u c' Ec Hst Hbr) as [Hl [U1 U2]]. split; [exact Hl|].
  assert (Ek : h_sk h' u = h_sk h u) by (subst h'; cbn [h_sk]; rewrite (keff_other u os Ho); exact Hf).
  unfold unread_ok. rewrite Ek. cbn [c_sent c_read c_full c_lost]. rewrite app_nil_r.
  assert (E1 : match rd with Some (t, _, RxBytes bs) => if t =? u then bs else [] | _ => [] end = []).
  { destruct rd as [[[t x] r]|]; auto. specialize (Hr t x r eq_refl). destruct r; auto. destruct (Z.eqb_spec t u); [contradiction|reflexivity]. }
  rewrite E1, app_nil_r. split; [exact U1|]. destruct U2 as [U|[U|[U|[U|U]]]]; [now left|right; now left| | |].
  - apply in_rest in U. 2:{ intros (t & E & Et). now apply (Hd t E). } subst h'. cbn [h_batch]. destruct thrown.
    + right. right. right. right. rewrite (lost_data u U). apply orb_true_r.
    + right. right. now left.
  - right. right. right. left. now rewrite U.
  - right. right. right. right. now rewrite U.
Qed.
End Give.

Lemma give_struct h e rest rd h' o : give h e rest rd = Some (h', o) -> exists v os, tsrv_step (h_srv h) e = Some (v, os) /\
  h' = mkH v (fold_left k_eff os (h_sk h)) (h_wait h) (if existsb is_uthrow os then [] else rest) /\
  o = mkHo [(e, os)] rd (if existsb is_uthrow os then rest else []).
Proof. unfold give. destruct (tsrv_step (h_srv h) e) as [[v os]|]; [|discriminate]. intros H. injection H as <- <-. eauto. Qed.

Lemma enabled_data v u c r w : conn_at v u = Some c -> t_link c = Some true -> tsrv_enabled v (EvData u r w) = true /\ tsrv_enabled v (EvError u) = true.
Proof.
  intros E L. apply conn_at_inv in E as [Hu E]. cbn [tsrv_enabled]. rewrite E, L. destruct (Z.leb_spec 1 u), (Z.ltb_spec u 33); try lia; auto.
Qed.
Lemma enabled_timer v u c a : conn_at v u = Some c -> t_timer c = Some (Some a) -> tsrv_enabled v (EvTimer u) = true.
Proof.
  intros E L. apply conn_at_inv in E as [Hu E]. cbn [tsrv_enabled]. rewrite E, L. destruct (Z.leb_spec 1 u), (Z.ltb_spec u 33); try lia; auto.
Qed.

Lemma cnext_idle u w e : (match e with HArrive _ _ => False | _ => True end) -> cview_next u w (e, quiet) = w.
Proof.
  intros H. unfold cview_next, quiet. cbn [o_seen o_read o_lost existsb]. destruct w as [a b c d f]. cbn [c_sent c_read c_full c_lost c_broken]. rewrite !orb_false_r, app_nil_r.
  destruct e; rewrite ?app_nil_r; auto. contradiction.
Qed.

Lemma report_edge es : forall f u, n_in (fold_left k_report es f u) = n_in (f u) /\ n_end (fold_left k_report es f u) = n_end (f u) /\
  (n_edge (f u) = true -> n_edge (fold_left k_report es f u) = true \/ In (NData u) es).
Proof.
  induction es as [|e es IH]; intros f u; [auto|]. cbn [fold_left]. destruct (IH (k_report f e) u) as (A & B & C). rewrite A, B.
  destruct e as [|t|t|t|ms]; cbn [k_report] in *; try (split; [reflexivity|split; [reflexivity|]]; intros H; destruct (C H); [now left|right; now right]).
  - unfold kset in *. destruct (Z.eqb_spec u t) as [<-|Ne]; cbn [n_seen n_in n_end n_edge] in *.
    + split; [reflexivity|]. split; [reflexivity|]. intros _. right. now left.
    + split; [reflexivity|]. split; [reflexivity|]. intros H. destruct (C H); [now left|right; now right].
  - unfold kset in *. destruct (Z.eqb_spec u t) as [<-|Ne]; cbn [n_set n_in n_end n_edge] in *;
      (split; [reflexivity|split; [reflexivity|]]; intros H; destruct (C H); [now left|right; now right]).
Qed.

Lemma msgs_ok b0 ms : forall h h' tr' T, Forall tev_ok ms -> forallb is_msg ms = true -> give_msgs h ms = Some (h', tr') -> ureach b0 (h_srv h) T ->
  (forall u, bytes_ok (n_in (h_sk h u))) ->
  ureach b0 (h_srv h') (T ++ tr') /\ (forall u, bytes_ok (n_in (h_sk h' u))) /\ h_batch h' = h_batch h /\ h_wait h' = h_wait h /\
  map fst tr' = ms /\
  (forall u, existsb (begins u) tr' = false /\ existsb (breaks u) tr' = false) /\
  (forall u c', conn_at (h_srv h') u = Some c' -> t_st c' <> UInit -> exists c, conn_at (h_srv h) u = Some c /\ t_st c <> UInit /\ t_link c' = t_link c /\
     n_in (h_sk h' u) = n_in (h_sk h u) /\ n_edge (h_sk h' u) = n_edge (h_sk h u) /\ n_end (h_sk h' u) = n_end (h_sk h u)).
Proof.
  induction ms as [|e ms IH]; intros h h' tr' T Ok Im G R B; cbn [give_msgs] in G.
  - injection G as <- <-. rewrite app_nil_r. do 5 (split; [auto|]). split; [intros u; auto|]. intros u c' Ec Hst. exists c'. auto 10.
  - destruct (tsrv_step (h_srv h) e) as [[v os]|] eqn:S; [|discriminate]. destruct (give_msgs _ ms) as [[h2 t2]|] eqn:G2; [|discriminate]. injection G as <- <-.
    inversion Ok as [|? ? Oe Oms]; subst. cbn [forallb] in Im. apply andb_prop in Im as [Ie Ims].
    assert (En : tsrv_enabled (h_srv h) e = true) by (destruct e; try discriminate; reflexivity).
    assert (R1 : ureach b0 v (T ++ [(e, os)])) by (eapply ur_step; eauto).
    destruct (IH _ _ _ (T ++ [(e, os)]) Oms Ims G2 R1) as (A1 & A2 & A3 & A4 & A5 & A6 & A7). { cbn [h_sk]. now apply keff_bytes. }
    cbn [h_srv h_sk h_batch h_wait] in *. rewrite <- app_assoc in A1. split; [exact A1|]. split; [exact A2|]. split; [exact A3|]. split; [exact A4|].
    split; [cbn [map fst]; congruence|]. split.
    { intros u. cbn [existsb]. destruct (A6 u) as [-> ->]. destruct e; try discriminate; auto. }
    intros u c' Ec Hst. destruct (A7 u c' Ec Hst) as (c & E1 & E2 & E3 & E4 & E5 & E6).
    pose proof (step_kept b0 _ T e v os u c R Oe En S E1 E2) as K. destruct K as [K1 K2 K3|c0 K1 K2 K3 K4 K5 K6|K1 K2 K3 K4].
    + exists c. rewrite E4, E5, E6, (keff_other u os K3). auto 10.
    + exists c0. destruct (keff_self u os K4 (h_sk h)) as (X1 & X2 & X3). rewrite E3, E4, E5, E6, X1, X2, X3. split; [exact K2|]. split; [exact K3|]. split; [|auto].
      destruct e; try discriminate; congruence.
    + subst e. discriminate.
Qed.

Lemma took_all k n (l : list Z) : n_in k = l -> n_in (n_took k (length (firstn n l))) = skipn n l.
Proof.
  intros <-. cbn [n_took n_in]. rewrite firstn_length. destruct (Nat.le_gt_cases n (length (n_in k))).
  - now rewrite Nat.min_l by lia.
  - rewrite Nat.min_r by lia. rewrite !skipn_all2 by lia. reflexivity.
Qed.

(** Events that reach no handler, and the exception of a destroyed timer. *)
Lemma pass_ok b0 h tr aok tok early rerr w hd rest (drop : bool) : HInv b0 h tr -> h_batch h = hd :: rest ->
  (forall u c, hd = NData u -> conn_at (h_srv h) u = Some c -> t_st c = UInit) ->
  HInv b0 (mkH (h_srv h) (h_sk h) (h_wait h) (if drop then [] else rest)) (tr ++ [(HNext aok tok early rerr w, mkHo [] None (if drop then rest else []))]).
Proof.
  intros I Hb Hd. pose proof (rest_ok b0 h tr hd rest I Hb) as Rok. constructor; cbn [h_srv h_sk h_batch]; rewrite ?served_snoc; cbn [o_seen]; rewrite ?app_nil_r; try apply I.
  - destruct drop; [constructor|exact Rok].
  - intros u c Ec Hst. rewrite cview_snoc. unfold cview_next. cbn [o_seen o_read o_lost existsb c_broken]. rewrite orb_false_r. intros Hbr.
    destruct (hi_conn _ _ _ I u c Ec Hst Hbr) as [Hl [U1 U2]]. split; [exact Hl|]. unfold unread_ok. cbn [h_sk h_batch c_sent c_read c_full c_lost]. rewrite !app_nil_r, orb_false_r.
    split; [exact U1|]. destruct U2 as [U|[U|[U|[U|U]]]]; [now left|right; now left| |right; right; right; now left|right; right; right; right; now rewrite U].
    rewrite Hb in U. destruct U as [U|U].
    + exfalso. apply Hst. now apply (Hd u).
    + destruct drop; [right; right; right; right; rewrite (lost_data rest u U); apply orb_true_r|right; right; now left].
Qed.

Lemma hinv_step b0 h tr e h' o : HInv b0 h tr -> hev_ok e -> h_step h e = Some (h', o) -> HInv b0 h' (tr ++ [(e, o)]).
Proof.
  intros I Ok S. destruct e as [|u bs|u|u|es|aok tok early rerr w]; cbn [h_step hev_ok] in S, Ok.
  - injection S as <- <-. constructor; cbn [h_srv h_sk h_batch]; rewrite ?served_snoc; cbn [quiet o_seen]; rewrite ?app_nil_r; try apply I.
    intros x c. rewrite cview_snoc, cnext_idle by exact Logic.I. exact (hi_conn _ _ _ I x c).
  - destruct (is_open (h_srv h) u) eqn:Eo; [|discriminate]. injection S as <- <-. constructor; cbn [h_srv h_sk h_batch]; rewrite ?served_snoc; cbn [quiet o_seen]; rewrite ?app_nil_r; try apply I.
    + apply kset_bytes; [apply I|]. cbn [n_got n_in]. apply Forall_app. split; [apply I|exact Ok].
    + intros x c Ec Hst. rewrite cview_snoc. unfold cview_next. cbn [quiet o_seen o_read o_lost existsb c_broken]. rewrite orb_false_r. intros Hbr.
      destruct (hi_conn _ _ _ I x c Ec Hst Hbr) as [Hl [U1 U2]]. split; [exact Hl|]. unfold unread_ok. cbn [h_sk h_batch c_sent c_read c_full c_lost]. rewrite app_nil_r, !orb_false_r.
      unfold kset. rewrite (Z.eqb_sym u x). destruct (Z.eqb_spec x u) as [->|Ne]; cbn [n_got n_in n_edge].
      * split; [rewrite U1; now rewrite <- app_assoc|]. right. now left.
      * rewrite app_nil_r. exact (conj U1 U2).
  - destruct (is_open (h_srv h) u) eqn:Eo; [|discriminate]. injection S as <- <-. constructor; cbn [h_srv h_sk h_batch]; rewrite ?served_snoc; cbn [quiet o_seen]; rewrite ?app_nil_r; try apply I.
    + apply kset_bytes; [apply I|]. cbn [n_fin n_in]. apply I.
    + intros x c Ec Hst. rewrite cview_snoc, cnext_idle by exact Logic.I. intros Hbr.
      destruct (hi_conn _ _ _ I x c Ec Hst Hbr) as [Hl [U1 U2]]. split; [exact Hl|]. unfold unread_ok. cbn [h_sk h_batch]. unfold kset. destruct (Z.eqb_spec x u) as [->|Ne]; cbn [n_fin n_in n_edge].
      * split; [exact U1|]. right. now left.
      * exact (conj U1 U2).
  - destruct (is_armed (h_srv h) u) eqn:Eo; [|discriminate]. destruct (n_tick (h_sk h u)); try discriminate. injection S as <- <-.
    constructor; cbn [h_srv h_sk h_batch]; rewrite ?served_snoc; cbn [quiet o_seen]; rewrite ?app_nil_r; try apply I.
    + apply kset_bytes; [apply I|]. cbn [n_set n_in]. apply I.
    + intros x c Ec Hst. rewrite cview_snoc, cnext_idle by exact Logic.I. intros Hbr.
      destruct (hi_conn _ _ _ I x c Ec Hst Hbr) as [Hl [U1 U2]]. split; [exact Hl|]. unfold unread_ok. cbn [h_sk h_batch]. unfold kset. destruct (Z.eqb_spec x u) as [->|Ne]; exact (conj U1 U2).
  - destruct (h_batch h) eqn:Hb; [|discriminate]. destruct (may_return h es) eqn:M; [|discriminate]. injection S as <- <-.
    constructor; cbn [h_srv h_sk h_batch]; rewrite ?served_snoc; cbn [quiet o_seen]; rewrite ?app_nil_r; try apply I.
    + intros x. destruct (report_edge es (h_sk h) x) as (-> & _). apply I.
    + unfold may_return in M. apply andb_prop in M as [M _]. apply andb_prop in M as [M _]. apply andb_prop in M as [_ M]. rewrite forallb_forall in M. rewrite Forall_forall in Ok |- *.
      intros x Hx. split; [now apply Ok|]. specialize (M x Hx). destruct x; auto.
    + intros x c Ec Hst. rewrite cview_snoc, cnext_idle by exact Logic.I. intros Hbr.
      destruct (hi_conn _ _ _ I x c Ec Hst Hbr) as [Hl [U1 U2]]. split; [exact Hl|]. unfold unread_ok. cbn [h_sk h_batch]. destruct (report_edge es (h_sk h) x) as (-> & _ & C).
      split; [exact U1|]. rewrite Hb in U2. destruct U2 as [U|[U|[[]|U]]]; [now left| |right; right; now right]. destruct (C U); [right; now left|right; right; now left].
  - destruct (h_batch h) as [|hd rest] eqn:Hb; [discriminate|]. pose proof (rest_ok b0 h tr hd rest I Hb) as Rok.
    assert (Rif : forall b : bool, Forall entry_ok (if b then [] else rest)) by (intros []; [constructor|exact Rok]).
    destruct hd as [|t|t|t|ms].
    + (* accept *)
      unfold h_accept in S. cbv zeta in S. set (lok := Nat.ltb (links_used (h_srv h)) linkMax) in S. destruct (give h (EvAccept lok aok tok) rest None) as [[h1 o1]|] eqn:G; [|discriminate].
      apply give_struct in G as (v & os & St & -> & ->). cbn [h_srv h_sk h_batch h_wait o_seen] in S. injection S as <- <-.
      assert (R1 : ureach b0 v (served tr ++ [(EvAccept lok aok tok, os)])) by (eapply ur_step; [apply I|exact Logic.I|reflexivity|exact St]).
      constructor; cbn [h_srv h_sk h_batch]; rewrite ?served_snoc; cbn [o_seen].
      * exact R1.
      * assert (X : forall x, bytes_ok (n_in (fold_left k_eff os (h_sk h) x))) by (apply keff_bytes, I).
        repeat match goal with |- context [match ?l with _ => _ end] => destruct l end; try exact X; apply kset_bytes; try exact X; assumption.
      * apply Rif.
      * intros u c' Ec Hst. rewrite cview_snoc.
        destruct (step_kept b0 _ _ (EvAccept lok aok tok) v os u c' (hi_reach _ _ _ I) Logic.I eq_refl St Ec Hst) as [K1 K2 K3|c0 K1 K2 K3 K4 K5 K6|K1 K2 K3 K4]; [|contradiction K6|].
        -- intros Hbr. destruct (give_other b0 h tr aok tok early rerr w NAccept rest I Hb (EvAccept lok aok tok) v os (h_sk h) None u c' (h_wait h)) as [X1 [X2 X3]];
             [discriminate|reflexivity|discriminate|discriminate|exact K3|exact K2|exact Hst|exact Hbr|]. split; [exact X1|].
           assert (E : forall f, (match os with [UArm x _] => kset f x (mkK early false (match early with [] => false | _ :: _ => true end) KRun) | _ => f end) u = f u).
           { intros f. destruct os as [|x [|]]; auto; destruct x; auto. apply kset_ne. rewrite Forall_forall in K3. destruct (K3 _ (or_introl eq_refl)) as [X|X]; [|discriminate]. cbn in X. congruence. }
           unfold unread_ok in *. cbn [h_sk h_batch] in *. rewrite E. exact (conj X2 X3).
        -- intros _. split; [exact K3|]. rewrite K1 in *. subst os. unfold cview_next, unread_ok. cbn [o_seen existsb begins fst snd is_uarm]. rewrite Z.eqb_refl. cbn [orb c_sent c_read c_full c_lost h_sk].
           rewrite kset_eq. cbn [n_in n_edge app]. split; [reflexivity|]. destruct early; [now left|right; now left].
    + (* data *)
      unfold h_data in S. destruct (conn_at (h_srv h) t) as [c|] eqn:Et.
      2:{ injection S as <- <-. apply (pass_ok b0 h tr aok tok early rerr w (NData t) rest false I Hb). intros x c E Ec. injection E as <-. congruence. }
      assert (Sk : t_st c = UInit -> HInv b0 (mkH (h_srv h) (h_sk h) (h_wait h) rest) (tr ++ [(HNext aok tok early rerr w, quiet)])).
      { intros Hi. apply (pass_ok b0 h tr aok tok early rerr w (NData t) rest false I Hb). intros x d E Ed. injection E as <-. congruence. }
      assert (G : t_st c <> UInit -> t_link c = Some true ->
        (if 1024 <? Z.of_nat (k_head (t_rx c)) then give h (EvData t RxNa w) rest None
         else let n := (length (k_pkt (t_rx c)) - k_head (t_rx c))%nat in let r := k_read (h_sk h t) n rerr in
              let k := match r with RxBytes bs => n_took (h_sk h t) (length bs) | _ => h_sk h t end in
              give (mkH (h_srv h) (kset (h_sk h) t k) (h_wait h) (h_batch h)) (EvData t r w) rest (Some (t, n, r))) = Some (h', o) ->
        HInv b0 h' (tr ++ [(HNext aok tok early rerr w, o)])).
      { intros Hst Hl E.
        assert (D : exists r f rd, give (mkH (h_srv h) f (h_wait h) (h_batch h)) (EvData t r w) rest rd = Some (h', o) /\ lrx_ok r /\ (forall x, bytes_ok (n_in (f x))) /\
          (forall x, x <> t -> f x = h_sk h x) /\ (forall x n y, rd = Some (x, n, y) -> x = t) /\
          (1024 < Z.of_nat (k_head (t_rx c)) \/ exists n, r = k_read (h_sk h t) n rerr /\ rd = Some (t, n, r) /\
             f t = match r with RxBytes bs => n_took (h_sk h t) (length bs) | _ => h_sk h t end)).
        { destruct (Z.ltb_spec 1024 (Z.of_nat (k_head (t_rx c)))) as [H1|H1].
          - exists RxNa, (h_sk h), None. split; [destruct h; exact E|]. split; [exact Logic.I|]. split; [apply I|]. split; [reflexivity|]. split; [discriminate|now left].
          - cbv zeta in E. eexists _, _, _. split; [exact E|]. pose proof (hi_bytes _ _ _ I t) as Bt. split.
            { unfold k_read. destruct rerr; [exact Logic.I|]. destruct (n_in (h_sk h t)) as [|z l] eqn:En; [destruct (n_end (h_sk h t)); [constructor|exact Logic.I]|].
              cbn [lrx_ok]. now apply firstn_bytes'. }
            split. { apply kset_bytes; [apply I|]. destruct (k_read _ _ _); auto. cbn [n_took n_in]. now apply skipn_bytes. }
            split; [intros x Hx; now apply kset_ne|]. split; [intros x n y Ey; now injection Ey|]. right. eexists. split; [reflexivity|]. split; [reflexivity|]. apply kset_eq. }
        clear E. destruct D as (r & f & rd & E & Rr & Fb & Fo & Rd & Dt). apply give_struct in E as (v & os & St & -> & ->). cbn [h_srv h_sk h_wait] in *.
        destruct (enabled_data (h_srv h) t c r w Et Hl) as [En _].
        assert (R1 : ureach b0 v (served tr ++ [(EvData t r w, os)])) by (eapply ur_step; [apply I|exact Rr|exact En|exact St]).
        constructor; cbn [h_srv h_sk h_batch]; rewrite ?served_snoc; cbn [o_seen].
        - exact R1.
        - now apply keff_bytes.
        - apply Rif.
        - intros u c' Ec Hst'. rewrite cview_snoc.
          destruct (step_kept b0 _ _ (EvData t r w) v os u c' (hi_reach _ _ _ I) Rr En St Ec Hst') as [K1 K2 K3|c0 K1 K2 K3 K4 K5 K6|K1 K2 K3 K4]; [| |discriminate K1].
          + assert (Ne : u <> t) by (intros ->; now apply K1). intros Hbr.
            apply (give_other b0 h tr aok tok early rerr w (NData t) rest I Hb (EvData t r w) v os f rd u c' (h_wait h));
              [intros x Ex; injection Ex as <-; congruence|now apply Fo|intros x n y Ey; apply Rd in Ey; congruence|discriminate|exact K3|exact K2|exact Hst'|exact Hbr].
          + cbn [target] in K1. injection K1 as <-. rewrite Et in K2. injection K2 as <-. destruct K6 as (_ & K6 & K7 & K8). destruct Dt as [Dt|(n & Er & Erd & Ef)]; [lia|].
            unfold cview_next. cbn [o_seen o_read o_lost existsb begins breaks fst orb c_broken]. rewrite orb_false_r. intros Hbr. split; [exact K6|].
            destruct (hi_conn _ _ _ I t c Et Hst Hbr) as [_ [U1 U2]]. unfold unread_ok. cbn [h_sk h_batch c_sent c_read c_full c_lost]. rewrite app_nil_r.
            destruct (keff_self t os K4 f) as (X1 & X2 & _). rewrite X1, X2, Ef. subst rd.
            unfold k_read in Er. destruct rerr; [congruence|]. destruct (n_in (h_sk h t)) as [|z l] eqn:En'.
            * destruct (n_end (h_sk h t)); subst r; cbn [length n_took n_in skipn]; rewrite En'; rewrite ?Z.eqb_refl, ?app_nil_r in *; (split; [exact U1|now left]).
            * subst r. rewrite (took_all _ n _ En'). rewrite Z.eqb_refl. cbn [andb]. split; [rewrite U1, <- app_assoc; now rewrite firstn_skipn|].
              destruct (Nat.eqb_spec (length (firstn n (z :: l))) n) as [F|F]; [right; right; right; left; apply orb_true_r|]. left. apply skipn_all2. rewrite firstn_length in F. lia. }
      destruct (t_st c) eqn:Est.
      * injection S as <- <-. apply Sk. reflexivity.
      * destruct (t_link c) as [[]|] eqn:El; try discriminate. apply G; [congruence|reflexivity|exact S].
      * destruct (t_link c) as [[]|] eqn:El; try discriminate. apply G; [congruence|reflexivity|exact S].
    + (* error *)
      unfold h_error in S.
      assert (Sk : HInv b0 (mkH (h_srv h) (h_sk h) (h_wait h) rest) (tr ++ [(HNext aok tok early rerr w, quiet)])).
      { apply (pass_ok b0 h tr aok tok early rerr w (NError t) rest false I Hb). discriminate. }
      destruct (conn_at (h_srv h) t) as [c|] eqn:Et; [|injection S as <- <-; exact Sk].
      assert (G : t_link c = Some true -> give (mkH (h_srv h) (kset (h_sk h) t (mkK [] false false (n_tick (h_sk h t)))) (h_wait h) (h_batch h)) (EvError t) rest None = Some (h', o) ->
        HInv b0 h' (tr ++ [(HNext aok tok early rerr w, o)])).
      { intros Hl E. apply give_struct in E as (v & os & St & -> & ->). cbn [h_srv h_sk h_wait] in *. destruct (enabled_data (h_srv h) t c RxNa w Et Hl) as [_ En].
        assert (R1 : ureach b0 v (served tr ++ [(EvError t, os)])) by (eapply ur_step; [apply I|exact Logic.I|exact En|exact St]).
        constructor; cbn [h_srv h_sk h_batch]; rewrite ?served_snoc; cbn [o_seen].
        - exact R1.
        - apply keff_bytes, kset_bytes; [apply I|constructor].
        - apply Rif.
        - intros u c' Ec Hst'. rewrite cview_snoc.
          destruct (step_kept b0 _ _ (EvError t) v os u c' (hi_reach _ _ _ I) Logic.I En St Ec Hst') as [K1 K2 K3|c0 K1 K2 K3 K4 K5 K6|K1 K2 K3 K4]; [| |discriminate K1].
          + assert (Ne : u <> t) by (intros ->; now apply K1). intros Hbr.
            apply (give_other b0 h tr aok tok early rerr w (NError t) rest I Hb (EvError t) v os _ None u c' (h_wait h));
              [discriminate|now apply kset_ne|discriminate|intros x Ex; injection Ex as <-; congruence|exact K3|exact K2|exact Hst'|exact Hbr].
          + cbn [target] in K1. injection K1 as <-. unfold cview_next. cbn [o_seen o_read o_lost existsb begins breaks fst orb c_broken]. rewrite Z.eqb_refl. cbn [orb]. rewrite orb_true_r. discriminate. }
      destruct (t_st c); [injection S as <- <-; exact Sk| |]; (destruct (t_link c) as [[]|] eqn:El; [now apply G|injection S as <- <-; exact Sk|injection S as <- <-; exact Sk]).
    + (* timer *)
      unfold h_timer in S.
      assert (Sk : forall drop : bool, HInv b0 (mkH (h_srv h) (h_sk h) (h_wait h) (if drop then [] else rest)) (tr ++ [(HNext aok tok early rerr w, mkHo [] None (if drop then rest else []))])).
      { intros drop. apply (pass_ok b0 h tr aok tok early rerr w (NTimer t) rest drop I Hb). discriminate. }
      destruct (conn_at (h_srv h) t) as [c|] eqn:Et; [|injection S as <- <-; exact (Sk false)].
      destruct (t_timer c) as [a|] eqn:Ett; [|injection S as <- <-; exact (Sk true)].
      assert (G : forall x, a = Some x -> give (mkH (h_srv h) (kset (h_sk h) t (n_set (h_sk h t) KRun)) (h_wait h) (h_batch h)) (EvTimer t) rest None = Some (h', o) ->
        HInv b0 h' (tr ++ [(HNext aok tok early rerr w, o)])).
      { intros x -> E. apply give_struct in E as (v & os & St & -> & ->). cbn [h_srv h_sk h_wait] in *. pose proof (enabled_timer (h_srv h) t c x Et Ett) as En.
        assert (R1 : ureach b0 v (served tr ++ [(EvTimer t, os)])) by (eapply ur_step; [apply I|exact Logic.I|exact En|exact St]).
        constructor; cbn [h_srv h_sk h_batch]; rewrite ?served_snoc; cbn [o_seen].
        - exact R1.
        - apply keff_bytes, kset_bytes; [apply I|]. cbn [n_set n_in]. apply I.
        - apply Rif.
        - intros u c' Ec Hst'. rewrite cview_snoc.
          destruct (step_kept b0 _ _ (EvTimer t) v os u c' (hi_reach _ _ _ I) Logic.I En St Ec Hst') as [K1 K2 K3|c0 K1 K2 K3 K4 K5 K6|K1 K2 K3 K4]; [|contradiction K6|discriminate K1].
          assert (Ne : u <> t) by (intros ->; now apply K1). intros Hbr.
          apply (give_other b0 h tr aok tok early rerr w (NTimer t) rest I Hb (EvTimer t) v os _ None u c' (h_wait h));
              [discriminate|now apply kset_ne|discriminate|discriminate|exact K3|exact K2|exact Hst'|exact Hbr]. }
      destruct a as [x|]; [|injection S as <- <-; exact (Sk false)]. destruct (n_tick (h_sk h t)); [injection S as <- <-; exact (Sk false)| |]; now apply (G x).
    + (* messages *)
      destruct (give_msgs h ms) as [[h1 t1]|] eqn:G; [|discriminate]. injection S as <- <-.
      assert (Mok : entry_ok (NMsg ms)) by (pose proof (hi_batch _ _ _ I) as X; rewrite Hb in X; now inversion X). destruct Mok as [M1 M2].
      destruct (msgs_ok b0 ms h h1 t1 (served tr) M1 M2 G (hi_reach _ _ _ I) (hi_bytes _ _ _ I)) as (A1 & A2 & A3 & A4 & A5 & A6 & A7).
      constructor; cbn [h_srv h_sk h_batch]; rewrite ?served_snoc; cbn [o_seen]; auto.
      intros u c' Ec Hst. rewrite cview_snoc. unfold cview_next. cbn [o_seen o_read o_lost existsb]. destruct (A6 u) as [B1 B2]. rewrite B1, B2. cbn [c_broken]. rewrite orb_false_r. intros Hbr.
      destruct (A7 u c' Ec Hst) as (c & E1 & E2 & E3 & E4 & E5 & E6). destruct (hi_conn _ _ _ I u c E1 E2 Hbr) as [Hl [U1 U2]]. split; [congruence|].
      unfold unread_ok. cbn [h_sk h_batch c_sent c_read c_full c_lost]. rewrite !app_nil_r, !orb_false_r, E4, E5. split; [exact U1|].
      rewrite Hb in U2. destruct U2 as [U|[U|[[U|U]|U]]]; [now left|right; now left|discriminate|right; right; now left|right; right; now right].
Qed.

Lemma hreach_inv b0 h tr : hreach b0 h tr -> HInv b0 h tr.
Proof. induction 1; [now apply hinv_new|eapply hinv_step; eauto]. Qed.
