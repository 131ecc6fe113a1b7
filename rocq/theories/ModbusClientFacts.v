(** The client over its concrete storage: transfer of the history facts, failure
    handling, progress, delivery of replies, definedness. *)
From Verif Require Import Base QueueModel MsgStorageModel ModbusCodecModel ModbusCodecSpec ModbusCodecProofs
  ModbusClientModel ModbusStoreProofs ModbusClientSpec ModbusClientProofs ModbusClientRuns.
Local Open Scope Z_scope.

Lemma ci_new b0 : length b0 = 512%nat -> bytes_ok b0 -> CI (c_new [] b0) None.
Proof. intros H1 H2. unfold c_new. constructor; cbn; auto; try lia. discriminate. Qed.

Lemma ev_sane es : Forall ev_ok es -> Forall req_sane es.
Proof.
  intros H. eapply Forall_impl; [|exact H]. intros [| it | | | |] He; cbn in *; auto.
  destruct He as (_ & _ & _ & _ & _ & He & _). unfold is_u16 in He. lia.
Qed.

Lemma boot_list m0 b0 es c tr : length b0 = 512%nat -> bytes_ok b0 -> Forall ev_ok es ->
  boot m0 b0 es = Some (c, tr) ->
  exists d, lc_run (c_new [] b0) es = Some (d, tr) /\ RC c d /\ CI d (wire_after None tr).
Proof.
  intros Hl Hb Hev. unfold boot. destruct (rs_new m0) as (s & Es & HS). rewrite Es. intros E.
  pose proof (client_sim es (c_new s b0) (c_new [] b0)) as P.
  assert (HR : RC (c_new s b0) (c_new [] b0)) by (unfold RC, c_new; cbn; auto 10).
  specialize (P HR (ev_sane _ Hev)). rewrite E in P.
  destruct (lc_run _ es) as [[d tr']|] eqn:El; [|contradiction]. destruct P as [P ->]. exists d.
  split; [auto|]. split; [auto|]. eapply run_inv; eauto. now apply ci_new.
Qed.

Lemma rs_contents k : forall s l, RS s l -> (length l <= k)%nat -> contents k s = Some l.
Proof.
  induction k as [|k IH]; intros s l H Hk; cbn [contents]; rewrite (rs_empty s l H).
  - destruct l; [reflexivity|cbn in Hk; lia].
  - destruct l as [|it l]; cbn [ls_empty]; [reflexivity|].
    rewrite (rs_front _ _ H). destruct (rs_pop _ _ H) as (s' & l' & E1 & E2 & H'). rewrite E1. cbn in E2 |- *.
    inversion E2; subst. rewrite (IH s' l' H') by (cbn in Hk; lia). reflexivity.
Qed.

Lemma rs_held s l : RS s l -> held s = Some l.
Proof. intros H. apply rs_contents; [auto|]. apply (rs_length _ _ H). Qed.

Lemma boot_snoc m0 b0 es e c tr : boot m0 b0 es = Some (c, tr) ->
  boot m0 b0 (es ++ [e]) = if enabled c e then match c_step as_empty as_front as_pop as_push c e with
    | Some (c', os) => Some (c', tr ++ [(e, os)]) | None => None end else None.
Proof.
  unfold boot. destruct (as_new m0) as [s|]; [|discriminate]. generalize (c_new s b0) as c0.
  intros c0. revert tr. unfold ac_run. revert c0. induction es as [|x es IH]; intros c0 tr E.
  - inversion E; subst. cbn [app c_run]. destruct (enabled c e); [|auto].
    destruct (c_step _ _ _ _ c e) as [[c' os]|]; auto.
  - cbn [app c_run] in *. destruct (enabled c0 x); [|discriminate].
    destruct (c_step _ _ _ _ c0 x) as [[c1 o1]|]; [|discriminate].
    destruct (c_run as_empty as_front as_pop as_push c1 es) as [[c2 t2]|] eqn:E1; [|discriminate].
    inversion E; subst. rewrite (IH _ _ E1). destruct (enabled c e); auto.
    destruct (c_step _ _ _ _ c e) as [[c' os]|]; auto.
Qed.

(** One more step, on both sides. *)
Lemma boot_step m0 b0 es e c tr c' os : length b0 = 512%nat -> bytes_ok b0 -> Forall ev_ok (es ++ [e]) ->
  boot m0 b0 es = Some (c, tr) -> boot m0 b0 (es ++ [e]) = Some (c', tr ++ [(e, os)]) ->
  exists d d', RC c d /\ RC c' d' /\ CI d (wire_after None tr) /\ lc_run (c_new [] b0) es = Some (d, tr) /\
    enabled d e = true /\ lc_step d e = Some (d', os).
Proof.
  intros Hl Hb Hev E1 E2. apply Forall_app in Hev as [Hev1 Hev2]. inversion Hev2; subst.
  destruct (boot_list _ _ _ _ _ Hl Hb Hev1 E1) as (d & R & HC & HI).
  rewrite (boot_snoc _ _ _ _ _ _ E1) in E2. destruct (enabled c e) eqn:En; [|discriminate].
  destruct (c_step _ _ _ _ c e) as [[c1 o1]|] eqn:Es; [|discriminate].
  apply some2 in E2 as (-> & E2). apply app_inj_tail in E2 as [_ E2]. injection E2 as ->.
  assert (Hs : req_sane e) by (pose proof (ev_sane [e]) as P; specialize (P Hev2); now inversion P).
  pose proof (c_step_sim c d e HC Hs En) as P. rewrite Es in P. unfold Ro in P.
  destruct (c_step ls_empty ls_front ls_pop ls_push d e) as [[d' o2]|] eqn:Ed; [|contradiction]. destruct P as [P ->].
  exists d, d'. rewrite (enabled_sim _ _ _ HC) in En. auto 10.
Qed.

Lemma held_rc c d : RC c d -> held (c_store c) = Some (c_store d).
Proof. intros H. apply rs_held. apply H. Qed.

(** * C25 *)
Lemma boot_order m0 b0 es c tr : length b0 = 512%nat -> bytes_ok b0 -> Forall ev_ok es ->
  boot m0 b0 es = Some (c, tr) ->
  exists l, sublist l (submitted tr) /\ Forall2 on_wire l (transmitted tr).
Proof.
  intros Hl Hb Hev E. destruct (boot_list _ _ _ _ _ Hl Hb Hev E) as (d & R & HC & HI).
  destruct (run_order es _ None d tr [] (ci_new b0 Hl Hb) Hev R) as (l & L1 & L2); [reflexivity|constructor|].
  exists l. split; [exact L1|]. clear - L2. induction L2; constructor; auto. apply sent_on_wire; auto.
Qed.

Lemma boot_push m0 b0 es it c tr c' os : length b0 = 512%nat -> bytes_ok b0 -> Forall ev_ok (es ++ [EReq it]) ->
  boot m0 b0 es = Some (c, tr) -> boot m0 b0 (es ++ [EReq it]) = Some (c', tr ++ [(EReq it, os)]) ->
  exists l l', held (c_store c) = Some l /\ held (c_store c') = Some l' /\ (length l' <= 64)%nat /\
    if (64 <=? length l)%nat || (260 <? q_nbytes (i_req it))
    then os = [error_for it] /\ l' = l
    else (os = errors (map ids (l ++ [it])) /\ l' = []) \/ (rsps os = [] /\ map ids l' = map ids l ++ [ids it]).
Proof.
  intros Hl Hb Hev E1 E2. destruct (boot_step _ _ _ _ _ _ _ _ Hl Hb Hev E1 E2) as (d & d' & HC & HC' & HI & R & En & Es).
  exists (c_store d), (c_store d'). rewrite (held_rc _ _ HC), (held_rc _ _ HC').
  apply Forall_app in Hev as [_ Hev]. inversion Hev; subst.
  pose proof (step_ok _ _ _ _ _ HI H1 En Es) as F. split; [auto|]. split; [auto|].
  split; [apply (ci_store _ _ (sf_inv _ _ _ _ _ F))|].
  pose proof (sf_ans _ _ _ _ _ F I) as Ha. cbn [answers] in Ha. unfold refused in Ha. rewrite map_length in Ha.
  unfold lc_step, c_step, on_req, ls_push in Es.
  destruct (Nat.leb_spec 64 (length (c_store d))) as [H64|H64]; cbn [orb] in *.
  - unfold as_capacity in Es. destruct (Nat.ltb_spec (length (c_store d)) 64); [lia|]. cbn [negb] in Es.
    apply some2 in Es as (<- & <-). auto.
  - unfold as_capacity in Es. destruct (Nat.ltb_spec (length (c_store d)) 64); [|lia]. cbn [negb] in Es.
    unfold maxAduLen in Es. destruct (Z.ltb_spec 260 (q_nbytes (i_req it))); [apply some2 in Es as (<- & <-); auto|].
    cbn in En. rewrite En in Es. cbn [negb] in Es.
    assert (Hg : map error_for (c_store d ++ [stored it]) = errors (map ids (c_store d ++ [it]))).
    { unfold errors. rewrite map_map, !map_app, ?map_map. cbn. reflexivity. }
    destruct (c_st d) eqn:Est.
    1,2,6: rewrite flush_list in Es by (cbn [set_store c_store]; rewrite app_length; cbn; lia);
      apply some2 in Es as (<- & <-); left; split; [exact Hg|reflexivity].
    2,3: apply some2 in Es as (<- & <-); right; split; [reflexivity|cbn; now rewrite map_app].
    right. unfold transit in Es. cbn [set_store c_st] in Es. rewrite Est in Es. cbn in Es.
    unfold on_exit, on_enter in Es. cbn [set_store c_st] in Es. rewrite Est in Es. cbn in Es.
    apply some2 in Es as (<- & <-). split; [reflexivity|cbn; now rewrite map_app].
Qed.

(** * C26 *)
Lemma boot_once m0 b0 es c tr : length b0 = 512%nat -> bytes_ok b0 -> Forall ev_ok es ->
  boot m0 b0 es = Some (c, tr) -> peer_ok [] None tr ->
  exactly_once [] tr /\ option_map (map ids) (held (c_store c)) = Some (unanswered [] tr).
Proof.
  intros Hl Hb Hev E Hp. destruct (boot_list _ _ _ _ _ Hl Hb Hev E) as (d & R & HC & HI).
  destruct (run_once es _ None d tr (ci_new b0 Hl Hb) Hev R Hp) as [H1 H2]. split; [exact H1|].
  rewrite (held_rc _ _ HC). cbn [option_map]. f_equal. symmetry. exact H2.
Qed.

Lemma peer_app : forall t1 t2 out w, peer_ok out w (t1 ++ t2) -> peer_ok out w t1 /\ peer_ok (unanswered out t1) (wire_after w t1) t2.
Proof.
  induction t1 as [|[e os] t1 IH]; intros t2 out w H; cbn in *; [auto|].
  destruct H as [H1 H2]. apply IH in H2. tauto.
Qed.

Lemma boot_drain m0 b0 es1 es2 c1 c2 tr1 tr2 : length b0 = 512%nat -> bytes_ok b0 -> Forall ev_ok (es1 ++ es2) ->
  boot m0 b0 es1 = Some (c1, tr1) -> boot m0 b0 (es1 ++ es2) = Some (c2, tr1 ++ tr2) ->
  peer_ok [] None (tr1 ++ tr2) ->
  (2 * length (unanswered [] tr1) <= expiries tr2)%nat ->
  (length (unanswered [] tr1) <= served (unanswered [] tr1) tr2)%nat.
Proof.
  intros Hl Hb Hev E1 E2 Hp Hc. destruct (boot_list _ _ _ _ _ Hl Hb Hev E2) as (d & R & _ & _).
  destruct (run_app _ _ _ _ _ R) as (d1 & t1 & t2 & R1 & R2 & Et).
  assert (Hev' := Hev). apply Forall_app in Hev' as [Hev1 Hev2].
  destruct (boot_list _ _ _ _ _ Hl Hb Hev1 E1) as (d1' & R1' & _ & HI). rewrite R1' in R1. apply some2 in R1 as (-> & ->).
  apply app_inv_head in Et. subst t2.
  destruct (peer_app _ _ _ _ Hp) as [Hp1 Hp2].
  destruct (run_once es1 _ None d1 t1 (ci_new b0 Hl Hb) Hev1 R1' Hp1) as [_ H2]. cbn [c_store c_new cp map] in H2.
  assert (H2' : unanswered [] t1 = cp d1) by exact H2. rewrite H2' in *.
  assert (Hlen : length (cp d1) = length (c_store d1)) by (unfold cp; apply map_length).
  rewrite Hlen in *. eapply run_drain; [exact HI|exact Hev2|exact R2|exact Hp2|lia|].
  unfold cost. destruct (length (c_store d1)); lia.
Qed.

(** A client that holds nothing and gets no request responds nothing. *)
Definition no_req (e : cev) : Prop := match e with EReq _ => False | _ => True end.
Lemma quiet_run es : forall d w d' tr, CI d w -> Forall ev_ok es -> Forall no_req es -> c_store d = [] ->
  lc_run d es = Some (d', tr) -> Forall (fun x => rsps (snd x) = [] /\ txs (snd x) = []) tr.
Proof.
  induction es as [|e es IH]; intros d w d' tr HI Hev Hn Hs E.
  - inversion E; subst. constructor.
  - inversion Hev; subst. inversion Hn; subst. runstep E. pose proof (step_ok _ _ _ _ _ HI H1 Hen Hst) as F.
    assert (Hni : new_item d e = []) by (destruct e; [reflexivity|contradiction|reflexivity..]).
    assert (Hpd : pend d = []) by (unfold pend; rewrite Hs; now destruct (c_st d)).
    constructor.
    + cbn [snd]. split.
      * pose proof (sf_ids _ _ _ _ _ F) as Hi. rewrite Hs in Hi. destruct e; try contradiction; cbn [map app] in Hi;
        (destruct (rsps os) as [|x l]; [reflexivity|exfalso; exact (Hi x (or_introl eq_refl))]).
      * destruct (sf_tx _ _ _ _ _ F) as [(Ht & _)|(_ & _ & it & bs & Hp & _)]; [exact Ht|congruence].
    + eapply IH; [apply F|exact H2|exact H4| |exact Hrun].
      destruct (sf_store _ _ _ _ _ F) as [k Hk]. rewrite Hk, Hs, Hni. now destruct k.
Qed.

Lemma boot_quiet m0 b0 es1 es2 c1 c2 tr1 tr2 : length b0 = 512%nat -> bytes_ok b0 -> Forall ev_ok (es1 ++ es2) ->
  Forall no_req es2 -> boot m0 b0 es1 = Some (c1, tr1) -> held (c_store c1) = Some [] ->
  boot m0 b0 (es1 ++ es2) = Some (c2, tr1 ++ tr2) ->
  Forall (fun x => rsps (snd x) = [] /\ txs (snd x) = []) tr2.
Proof.
  intros Hl Hb Hev Hn E1 Hh E2. destruct (boot_list _ _ _ _ _ Hl Hb Hev E2) as (d & R & _ & _).
  destruct (run_app _ _ _ _ _ R) as (d1 & t1 & t2 & R1 & R2 & Et).
  apply Forall_app in Hev as [Hev1 Hev2].
  destruct (boot_list _ _ _ _ _ Hl Hb Hev1 E1) as (d1' & R1' & HC & HI). rewrite R1' in R1. apply some2 in R1 as (-> & ->).
  apply app_inv_head in Et. subst t2. rewrite (held_rc _ _ HC) in Hh. injection Hh as Hh.
  eapply quiet_run; eauto.
Qed.

(** * C27, C28 *)
Lemma boot_names m0 b0 es c tr : length b0 = 512%nat -> bytes_ok b0 -> Forall ev_ok es ->
  boot m0 b0 es = Some (c, tr) -> names_submitted [] tr.
Proof.
  intros Hl Hb Hev E. destruct (boot_list _ _ _ _ _ Hl Hb Hev E) as (d & R & _ & _).
  eapply run_names; [apply (ci_new b0 Hl Hb)|exact Hev|exact R|]. apply incl_nil_l.
Qed.

Lemma boot_backed m0 b0 es c tr : length b0 = 512%nat -> bytes_ok b0 -> Forall ev_ok es ->
  boot m0 b0 es = Some (c, tr) -> peer_ok [] None tr -> successes_backed [] None tr.
Proof.
  intros Hl Hb Hev E Hp. destruct (boot_list _ _ _ _ _ Hl Hb Hev E) as (d & R & _ & _).
  eapply run_backed; [apply (ci_new b0 Hl Hb)|exact Hev|exact R|exact Hp|apply incl_nil_l].
Qed.

Lemma boot_wire m0 b0 es c tr : length b0 = 512%nat -> bytes_ok b0 -> Forall ev_ok es ->
  boot m0 b0 es = Some (c, tr) -> one_on_wire None tr.
Proof.
  intros Hl Hb Hev E. destruct (boot_list _ _ _ _ _ Hl Hb Hev E) as (d & R & _ & _).
  eapply run_wire; [apply (ci_new b0 Hl Hb)|exact Hev|exact R].
Qed.

(** * C29, C30: failure and progress *)
Lemma errors_cp (d : lclient) : map error_for (c_store d) = errors (cp d).
Proof. unfold errors, cp. rewrite map_map. reflexivity. Qed.

Lemma fail_all_spec (d : lclient) : (length (c_store d) <= 64)%nat -> c_st d <> CBackoff ->
  exists d' rest, fail_all ls_empty ls_front ls_pop d = Some (d', errors (cp d) ++ OClose :: rest) /\
    (rest = [OTimer 500000] \/ rest = [OStop; OTimer 500000]) /\ c_store d' = [] /\ c_fd d' = false /\
    c_timer d' = Some 500000 /\ c_st d' = CBackoff.
Proof.
  intros H Hs. unfold fail_all. rewrite flush_list by (unfold as_capacity; lia). unfold close, transit.
  cbn [c_st set_fd set_store]. rewrite errors_cp.
  destruct d as [st fd tm s b p l]; cbn [c_st c_store] in *.
  destruct st; cbn [cst_eqb]; try congruence; cbn -[errors app]; do 2 eexists; (split; [reflexivity|]); cbn; auto 10.
Qed.

Definition established (s : cst) : bool := match s with CConnected | CSend | CReceive => true | _ => false end.

Lemma read_failure d w : CI d w -> established (c_st d) = true -> c_len d <= 260 ->
  exists d' rest, lc_step d (EData RxErr) = Some (d', errors (cp d) ++ OClose :: rest) /\
    (rest = [OTimer 500000] \/ rest = [OStop; OTimer 500000]) /\ c_store d' = [] /\ c_fd d' = false /\
    c_timer d' = Some 500000 /\ c_st d' = CBackoff.
Proof.
  intros HI Hs Hl. destruct (fail_all_spec d (ci_store _ _ HI)) as (d' & rest & E & H); [now destruct (c_st d)|].
  exists d', rest. split; [|exact H]. unfold lc_step, c_step, on_data, c_receive, maxAduLen.
  assert (Ef : (if c_fd d then RxErr else RxErr) = RxErr) by now destruct (c_fd d).
  rewrite Ef. destruct (Z.ltb_spec 260 (c_len d)); [lia|].
  destruct (c_st d); try discriminate; cbn [andthen]; rewrite E; reflexivity.
Qed.

Lemma send_failure d w sok cok : CI d w -> c_st d = CSend -> sok && c_fd d = false -> 
  (exists it rest bs, c_store d = it :: rest /\ encode_req (i_req it) = EncOk bs) ->
  exists d' rest, lc_step d (ETimer sok cok) = Some (d', errors (cp d) ++ OClose :: rest) /\
    (rest = [OTimer 500000] \/ rest = [OStop; OTimer 500000]) /\ c_store d' = [] /\ c_fd d' = false /\
    c_timer d' = Some 500000 /\ c_st d' = CBackoff.
Proof.
  intros HI Hs Hf (it & tl & bs & Es & Ee).
  destruct (fail_all_spec (set_timer d None) (ci_store _ _ HI)) as (d' & rest & E & H); [cbn; congruence|].
  exists d', rest. split; [|exact H]. unfold lc_step, c_step, on_timer. cbn [c_st set_timer]. rewrite Hs.
  unfold c_send. cbn [c_store set_timer]. rewrite Es. cbn [ls_empty ls_front]. rewrite Ee.
  cbn [c_fd set_timer]. rewrite Hf. cbn [andthen]. rewrite E. reflexivity.
Qed.

Lemma receive_noclose (d d1 : lclient) o1 s r : c_receive ls_empty ls_front d r = Some (d1, o1, s) ->
  ~ In OClose o1 /\ (s = SError -> o1 = []) /\ c_store d1 = c_store d /\ c_st d1 = c_st d.
Proof.
  intros E. unfold c_receive in E.
  repeat (match type of E with context [match ?x with _ => _ end] => destruct x in E; try discriminate E end);
  apply some3 in E as (<- & <- & <-); (split; [cbn [In]; intuition discriminate|split; [intros; try discriminate; reflexivity|split; reflexivity]]).
Qed.

Lemma transit_noclose (d d1 : lclient) o1 st cok : transit ls_pop d st cok = Some (d1, o1) -> ~ In OClose o1.
Proof.
  unfold transit. destruct (cst_eqb _ _); [intros E; apply some2 in E as (<- & <-); auto|].
  destruct d as [s0 fd tm s b p l]; unfold on_exit, on_enter; cbn [c_st c_store set_st set_timer set_store].
  assert (Hpop : ls_pop s = Some (tl s)) by (now destruct s).
  destruct s0; rewrite ?Hpop; destruct st; cbn; try destruct (_ || _); intros E; apply some2 in E as (<- & <-); cbn; intuition discriminate.
Qed.

Lemma close_flushes d w e d' os : CI d w -> ev_ok e -> enabled d e = true -> lc_step d e = Some (d', os) ->
  In OClose os -> exists rest, os = errors (cp d) ++ OClose :: rest /\
    (rest = [OTimer 500000] \/ rest = [OStop; OTimer 500000]) /\ c_store d' = [] /\ c_timer d' = Some 500000.
Proof.
  intros HI Hev Hen E Hc. pose proof (ci_store _ _ HI) as Hst. unfold lc_step, c_step in E.
  assert (Hf : forall d1, c_store d1 = c_store d -> c_st d1 <> CBackoff -> forall d2 o2, fail_all ls_empty ls_front ls_pop d1 = Some (d2, o2) ->
     exists rest, o2 = errors (cp d) ++ OClose :: rest /\
    (rest = [OTimer 500000] \/ rest = [OStop; OTimer 500000]) /\ c_store d2 = [] /\ c_timer d2 = Some 500000).
  { intros d1 H1 H2 d2 o2 H3. destruct (fail_all_spec d1) as (d3 & rest & E3 & H4 & H5 & _ & H6 & _); [now rewrite H1|auto|].
    rewrite H3 in E3. apply some2 in E3 as (-> & ->). exists rest. unfold cp. rewrite <- H1. auto. }
  destruct e as [cok|it| |r| |sok cok].
  - destruct (c_st d); try (apply some2 in E as (<- & <-); now destruct Hc). exfalso. now apply transit_noclose in E.
  - exfalso. unfold on_req, ls_push in E.
    destruct (negb _); [apply some2 in E as (<- & <-); destruct Hc as [Hc|[]]; discriminate|].
    destruct (_ <? _); [apply some2 in E as (<- & <-); destruct Hc as [Hc|[]]; discriminate|].
    destruct (negb _); [discriminate|].
    assert (Hmap : forall l, ~ In OClose (map error_for l)).
    { intros l Hi. apply in_map_iff in Hi as (x & Hx & _). discriminate. }
    destruct (c_st d).
    1,2,6: destruct (flush _ _ _ _ _) as [[s2 o2]|] eqn:Ef in E; [|discriminate]; apply some2 in E as (<- & <-);
      rewrite flush_list in Ef by (cbn [set_store c_store]; rewrite app_length; cbn; unfold as_capacity; lia);
      apply some2 in Ef as (_ & <-); now apply Hmap in Hc.
    + now apply transit_noclose in E.
    + apply some2 in E as (<- & <-). now destruct Hc.
    + apply some2 in E as (<- & <-). now destruct Hc.
  - destruct (c_st d); try (apply some2 in E as (<- & <-); now destruct Hc). exfalso. now apply transit_noclose in E.
  - unfold on_data in E. destruct (c_st d) eqn:Es; try (apply some2 in E as (<- & <-); now destruct Hc);
    destruct (c_receive ls_empty ls_front d r) as [[[d1 o1] s]|] eqn:Er in E; try discriminate;
    destruct (receive_noclose _ _ _ _ _ Er) as (Hn & He & Hs1 & Hs2); clear Er;
    destruct s; try (apply some2 in E as (<- & <-); contradiction); cbn [andthen] in E;
    try (destruct (fail_all ls_empty ls_front ls_pop d1) as [[d2 o2]|] eqn:Ef in E; [|discriminate];
         apply some2 in E as (<- & <-); rewrite (He eq_refl); cbn [app]; eapply Hf; [exact Hs1|congruence|exact Ef]).
    destruct (transit ls_pop d1 CSend false) as [[d2 o2]|] eqn:Ef in E; [|discriminate].
    apply some2 in E as (<- & <-). exfalso. apply in_app_iff in Hc as [Hc|Hc]; [contradiction|]. now apply transit_noclose in Ef.
  - exfalso. destruct (c_st d); try (apply some2 in E as (<- & <-); now destruct Hc). now apply transit_noclose in E.
  - unfold on_timer in E. destruct (c_st d) eqn:Es; cbn [c_st set_timer] in E; rewrite Es in E.
    + apply some2 in E as (<- & <-). now destruct Hc.
    + assert (Hz : c_store d = []) by (apply (ci_idle _ _ HI); now rewrite Es).
      unfold close, transit in E. cbn [andthen set_fd c_st set_timer] in E. rewrite Es in E. cbn [cst_eqb] in E.
      unfold on_exit, on_enter in E. cbn [c_st set_fd set_timer] in E. rewrite Es in E. cbn in E.
      apply some2 in E as (<- & <-). exists [OStop; OTimer 500000]. unfold cp. rewrite Hz. cbn. auto.
    + apply some2 in E as (<- & <-). now destruct Hc.
    + unfold c_send in E. cbn [c_store set_timer] in E. destruct (c_store d) as [|it tl] eqn:Ed.
      * cbn [ls_empty] in E. cbn [andthen] in E.
        destruct (transit ls_pop _ _ _) as [[d2 o2]|] eqn:Et in E; [|discriminate].
        apply some2 in E as (<- & <-). exfalso. now apply transit_noclose in Et.
      * cbn [ls_empty ls_front ls_pop] in E. destruct (encode_req (i_req it)); try discriminate.
        -- destruct (sok && _) in E; cbn [andthen] in E.
           ++ destruct (transit ls_pop _ _ _) as [[d2 o2]|] eqn:Et in E; [|discriminate].
              apply some2 in E as (<- & <-). exfalso. apply in_app_iff in Hc as [[Hc|[]]|Hc]; [discriminate|].
              now apply transit_noclose in Et.
           ++ destruct (fail_all ls_empty ls_front ls_pop _) as [[d2 o2]|] eqn:Ef in E; [|discriminate].
              apply some2 in E as (<- & <-). cbn [app]. eapply Hf; [| |exact Ef]; [cbn; auto|cbn; congruence].
        -- apply some2 in E as (<- & <-). exfalso. destruct Hc as [Hc|[Hc|[]]]; discriminate.
    + cbn [c_store set_timer] in E.
      assert (Ht : forall l, In OClose l -> l = [] \/ (exists it, l = [ORsp (i_client it) (q_tid (i_req it)) false 0 []]) -> False).
      { intros l H1 [->|[it ->]]; [destruct H1|destruct H1 as [H1|[]]; discriminate]. }
      destruct (c_store d) as [|it tl]; cbn [ls_empty ls_front andthen] in E.
      * exfalso. now apply transit_noclose in E.
      * destruct (transit ls_pop _ _ _) as [[d2 o2]|] eqn:Et in E; [|discriminate].
        apply some2 in E as (<- & <-). exfalso. apply in_app_iff in Hc as [[Hc|[]]|Hc]; [discriminate|].
        now apply transit_noclose in Et.
    + exfalso. now apply transit_noclose in E.
Qed.

Definition connecting (s : cst) : bool := match s with CConnect | CBackoff => true | _ => false end.

Lemma errors_progress (l : list item) rest : l <> [] -> progresses (errors (map ids l) ++ rest) = true.
Proof. destruct l; [congruence|]. reflexivity. Qed.

Lemma timer_progresses d w sok cok : CI d w -> (c_store d <> [] \/ connecting (c_st d) = true) ->
  c_timer d <> None /\ exists d' os, lc_step d (ETimer sok cok) = Some (d', os) /\ progresses os = true.
Proof.
  intros HI H.
  assert (Hh : may_hold (c_st d) = true \/ connecting (c_st d) = true).
  { destruct H as [H|H]; [left|auto]. destruct (may_hold (c_st d)) eqn:Em; [reflexivity|]. now rewrite (ci_idle _ _ HI Em) in H. }
  split. { rewrite (ci_timer _ _ HI). destruct (c_st d); cbn in *; intuition discriminate. }
  pose proof (ci_items _ _ HI) as Hit.
  unfold lc_step, c_step, on_timer. destruct (c_st d) eqn:Es; cbn [c_st set_timer]; rewrite Es; cbn in Hh.
  - exfalso; intuition discriminate.
  - unfold close, transit. cbn [andthen set_fd c_st set_timer]. rewrite Es. cbn [cst_eqb].
    unfold on_exit, on_enter. cbn [c_st set_fd set_timer]. rewrite Es. cbn. eauto.
  - exfalso; intuition discriminate.
  - assert (Hne : c_store d <> []) by (destruct H as [H|H]; [auto|cbn in H; discriminate]).
    unfold c_send. cbn [c_store set_timer]. destruct (c_store d) as [|it tl] eqn:Ed; [congruence|].
    cbn [ls_empty ls_front ls_pop]. inversion Hit as [|? ? [Hi1 Hi2] Hi3]; subst.
    destruct (encode_req_safe _ Hi1 Hi2) as [Hs1 Hs2]. destruct (encode_req (i_req it)) as [bs|bs| |]; try congruence.
    + destruct (sok && _); cbn [andthen].
      * destruct (transit_total (set_timer d None) CReceive cok) as (d' & os & E & _). rewrite E. eauto.
      * destruct (fail_all_spec (set_timer d None)) as (d' & rest & E & _);
          [cbn [c_store set_timer]; rewrite Ed; pose proof (ci_store _ _ HI) as Q; rewrite Ed in Q; exact Q|cbn; congruence|].
        rewrite E. do 2 eexists. split; [reflexivity|]. cbn [app]. unfold cp. cbn [c_store set_timer]. rewrite Ed.
        now apply errors_progress.
    + do 2 eexists. split; [reflexivity|]. reflexivity.
  - assert (Hne : c_store d <> []) by (destruct H as [H|H]; [auto|cbn in H; discriminate]).
    cbn [c_store set_timer]. destruct (c_store d) as [|it tl] eqn:Ed; [congruence|]. cbn [ls_empty ls_front andthen].
    destruct (transit_total (set_timer d None) CSend cok) as (d' & os & E & _). rewrite E. eauto.
  - assert (Hf : c_fd d = false) by (apply (ci_fd _ _ HI); now rewrite Es).
    unfold transit. cbn [c_st set_timer]. rewrite Es. cbn [cst_eqb]. unfold on_exit, on_enter. cbn [c_st set_timer].
    rewrite Es. cbn. destruct (c_fd d || negb cok); cbn; eauto.
Qed.

(** Carrying a list step back to the concrete client. *)
Lemma step_back m0 b0 es e c tr : length b0 = 512%nat -> bytes_ok b0 -> Forall ev_ok (es ++ [e]) ->
  boot m0 b0 es = Some (c, tr) -> enabled c e = true ->
  exists d, RC c d /\ CI d (wire_after None tr) /\ lc_run (c_new [] b0) es = Some (d, tr) /\
    forall d' os, lc_step d e = Some (d', os) ->
      exists c', boot m0 b0 (es ++ [e]) = Some (c', tr ++ [(e, os)]) /\ RC c' d'.
Proof.
  intros Hl Hb Hev E En. apply Forall_app in Hev as [Hev1 Hev2].
  destruct (boot_list _ _ _ _ _ Hl Hb Hev1 E) as (d & R & HC & HI). exists d. do 3 (split; [auto|]).
  intros d' os Es. rewrite (boot_snoc _ _ _ _ _ _ E), En.
  assert (Hs : req_sane e) by (pose proof (ev_sane [e]) as P; specialize (P Hev2); now inversion P).
  pose proof (c_step_sim c d e HC Hs En) as P. unfold lc_step in Es. rewrite Es in P. unfold Ro in P.
  destruct (c_step as_empty as_front as_pop as_push c e) as [[c' o2]|]; [|contradiction]. destruct P as [P ->]. eauto.
Qed.

Lemma boot_progress m0 b0 es c tr sok cok l : length b0 = 512%nat -> bytes_ok b0 -> Forall ev_ok es ->
  boot m0 b0 es = Some (c, tr) -> held (c_store c) = Some l -> (l <> [] \/ connecting (c_st c) = true) ->
  exists c' os, boot m0 b0 (es ++ [ETimer sok cok]) = Some (c', tr ++ [(ETimer sok cok, os)]) /\ progresses os = true.
Proof.
  intros Hl Hb Hev E Hh H. destruct (boot_list _ _ _ _ _ Hl Hb Hev E) as (d & R & HC & HI).
  rewrite (held_rc _ _ HC) in Hh. injection Hh as <-.
  assert (Est : c_st c = c_st d) by apply HC. rewrite Est in H.
  destruct (timer_progresses d _ sok cok HI H) as (Ht & d' & os & Es & Hp).
  destruct (step_back m0 b0 es (ETimer sok cok) c tr Hl Hb) as (d2 & HC2 & HI2 & R2 & Hback); auto.
  { apply Forall_app. split; [auto|]. constructor; [exact I|constructor]. }
  { cbn. assert (c_timer c = c_timer d) as -> by apply HC. now destruct (c_timer d). }
  rewrite R in R2. apply some2 in R2 as (<- & _).
  destruct (Hback _ _ Es) as (c' & Eb & _). eauto.
Qed.

Lemma boot_close m0 b0 es e c tr c' os : length b0 = 512%nat -> bytes_ok b0 -> Forall ev_ok (es ++ [e]) ->
  boot m0 b0 es = Some (c, tr) -> boot m0 b0 (es ++ [e]) = Some (c', tr ++ [(e, os)]) -> In OClose os ->
  exists l rest, held (c_store c) = Some l /\ os = errors (map ids l) ++ OClose :: rest /\
    (rest = [OTimer 500000] \/ rest = [OStop; OTimer 500000]) /\
    held (c_store c') = Some [] /\ c_timer c' = Some 500000.
Proof.
  intros Hl Hb Hev E1 E2 Hc. destruct (boot_step _ _ _ _ _ _ _ _ Hl Hb Hev E1 E2) as (d & d' & HC & HC' & HI & R & En & Es).
  apply Forall_app in Hev as [_ Hev]. inversion Hev; subst.
  destruct (close_flushes _ _ _ _ _ HI H1 En Es Hc) as (rest & -> & Hr & Hs & Ht).
  exists (c_store d), rest. rewrite (held_rc _ _ HC), (held_rc _ _ HC'), Hs.
  assert (c_timer c' = c_timer d') as -> by apply HC'. auto 10.
Qed.

(** A failed read or write closes the link. *)
Definition fails (c : client astore) (e : cev) : Prop :=
  match e with
  | EData RxErr => established (c_st c) = true /\ c_len c <= 260
  | ETimer sok _ => c_st c = CSend /\ sok && c_fd c = false /\
      exists it rest bs, held (c_store c) = Some (it :: rest) /\ encode_req (i_req it) = EncOk bs
  | _ => False
  end.

Lemma boot_fails m0 b0 es e c tr : length b0 = 512%nat -> bytes_ok b0 -> Forall ev_ok es ->
  boot m0 b0 es = Some (c, tr) -> enabled c e = true -> fails c e ->
  exists c' os, boot m0 b0 (es ++ [e]) = Some (c', tr ++ [(e, os)]) /\ In OClose os.
Proof.
  intros Hl Hb Hev E En Hf.
  assert (Hee : ev_ok e) by (destruct e as [| | |[]| |]; try exact I; destruct Hf).
  destruct (step_back m0 b0 es e c tr Hl Hb) as (d & HC & HI & R & Hback); auto.
  { apply Forall_app. split; [auto|]. constructor; [auto|constructor]. }
  assert (Hin : forall x rest, In OClose (x ++ OClose :: rest)) by (intros; apply in_or_app; right; left; auto).
  pose proof HC as HC0. destruct HC0 as (H1 & H2 & H3 & H4 & H5 & H6 & H7).
  destruct e as [| | |[]| |sok cok]; cbn [fails] in Hf; try contradiction.
  - destruct Hf as [F1 F2]. rewrite H1 in F1. rewrite H7 in F2.
    destruct (read_failure _ _ HI F1 F2) as (d' & rest & Es & _). destruct (Hback _ _ Es) as (c' & Eb & _). eauto.
  - destruct Hf as (F1 & F2 & it & rest & bs & F3 & F4). rewrite H1 in F1. rewrite H2 in F2.
    rewrite (held_rc _ _ HC) in F3. injection F3 as F3.
    destruct (send_failure _ _ sok cok HI F1 F2) as (d' & rst & Es & _); [eauto|].
    destruct (Hback _ _ Es) as (c' & Eb & _). eauto.
Qed.

(** * C60 *)
Lemma pi_run es : forall d w d' tr, CI d w -> PI d -> Forall ev_ok es -> Forall not_eof es ->
  lc_run d es = Some (d', tr) -> PI d'.
Proof.
  induction es as [|e es IH]; intros d w d' tr HI HP Hev Hn E.
  - inversion E; subst. exact HP.
  - inversion Hev; subst. inversion Hn; subst. runstep E. pose proof (step_ok _ _ _ _ _ HI H1 Hen Hst) as F.
    destruct (step_defined d w e HI HP H1 Hen H3) as (d2 & o2 & E2 & HP2). rewrite Hst in E2. apply some2 in E2 as (<- & <-).
    eapply IH; [apply F|exact HP2|exact H2|exact H4|exact Hrun].
Qed.

Lemma boot_defined m0 b0 es e c tr : length b0 = 512%nat -> bytes_ok b0 -> Forall ev_ok (es ++ [e]) ->
  Forall not_eof (es ++ [e]) -> boot m0 b0 es = Some (c, tr) -> enabled c e = true ->
  exists c' os, boot m0 b0 (es ++ [e]) = Some (c', tr ++ [(e, os)]).
Proof.
  intros Hl Hb Hev Hn E En. destruct (step_back m0 b0 es e c tr Hl Hb Hev E En) as (d & HC & HI & R & Hback).
  apply Forall_app in Hev as [Hev1 Hev2]. apply Forall_app in Hn as [Hn1 Hn2]. inversion Hev2; subst. inversion Hn2; subst.
  assert (HP : PI d) by (eapply pi_run; [apply (ci_new b0 Hl Hb)|left; reflexivity|exact Hev1|exact Hn1|exact R]).
  rewrite (enabled_sim _ _ _ HC) in En.
  destruct (step_defined d _ e HI HP H1 En H3) as (d' & os & Es & _). destruct (Hback _ _ Es) as (c' & Eb & _). eauto.
Qed.

(** * C61: delivery *)
Lemma frame_into_buf b bs : (length bs <= 512)%nat -> length b = 512%nat ->
  buf_write b 0 bs = bs ++ skipn (length bs) b.
Proof. intros. reflexivity. Qed.

Lemma deliver d it rest bs a : CI d (Some []) -> c_store d = it :: rest -> enabled d (EData (RxBytes bs)) = true ->
  encode_rsp a = EncOk bs -> replies_to (i_req it) a -> q_tid (i_req it) < 65536 -> 0 <= q_addr (i_req it) < 256 ->
  a_func a <> 143 ->
  exists d' os data, lc_step d (EData (RxBytes bs)) = Some (d', ORsp (i_client it) (q_tid (i_req it)) true 0 data :: os) /\
    rsps os = [] /\ (In (a_func a) [3; 4; 5; 6] -> data = firstn (Z.to_nat (a_nbytes a)) (a_data a)).
Proof.
  intros HI Hs Hen He (Hok & Ht & Ha & Hf) Hlt Hadr Hfn. destruct (ci_wire _ _ HI) as (Est & _ & Hp & Hl & Hr).
  assert (Hl0 : c_len d = 0).
  { pose proof (ci_buf _ _ HI) as Hb. pose proof (ci_len _ _ HI). assert (L := f_equal (@length _) Hr). rewrite firstn_length, Hb in L. cbn in L. lia. }
  destruct (encode_rsp_wf _ _ Hok He) as [Hwf Hlen].
  pose proof (encode_rsp_cases _ _ He) as [Hfc _].
  unfold lc_step, c_step, on_data. rewrite Est. unfold c_receive. rewrite Hl0. cbn [maxAduLen].
  destruct (Z.ltb_spec maxAduLen 0) as [X|_]; [unfold maxAduLen in X; lia|].
  cbn in Hen. rewrite Hen, Hs. cbn [ls_empty ls_front].
  assert (Efn : firstn (Z.to_nat (bufMaxLen - 0)) bs = bs) by (apply firstn_all2; unfold bufMaxLen; lia).
  rewrite Efn. change (Z.to_nat 0) with 0%nat.
  rewrite frame_into_buf by (try lia; apply (ci_buf _ _ HI)). rewrite Z.add_0_l.
  rewrite (wf_frame_accepted bs _ Hwf Hlen). rewrite Hp. cbn [skipn].
  destruct (rsp_roundtrip a bs (skipn (length bs) (c_buf d)) rsp0 Hok He) as (a' & Ed & Hrx); [cbn; lia|].
  rewrite Ed. destruct Hrx as (R1 & R2 & R3 & _ & _ & _ & R4).
  assert (H16 : 0 <= q_tid (i_req it)) by (rewrite <- Ht; destruct Hok as (Hu & _); unfold is_u32 in Hu; lia).
  rewrite R1, Ht, R3, Ha, R2, Hf. rewrite (Z.mod_small (q_tid (i_req it))) by lia. rewrite (Z.mod_small (q_addr (i_req it))) by lia.
  rewrite !Z.eqb_refl. cbn [negb]. rewrite Hf in Hfn.
  destruct (Z.eqb_spec modbusErrorFn (q_func (i_req it))) as [X|_]; [exfalso; apply Hfn; now rewrite <- X|].
  cbn [andthen].
  match goal with |- context [transit ls_pop ?x CSend false] => destruct (transit_total x CSend false) as (d' & os & E & _) end.
  rewrite E. cbn [app]. do 3 eexists. split; [reflexivity|]. split.
  - revert E. unfold transit. cbn [c_st set_buf]. rewrite Est. cbn [cst_eqb]. unfold on_exit. cbn [c_st set_buf]. rewrite Est.
    cbn [c_store set_buf]. rewrite Hs. cbn [ls_pop]. unfold on_enter. cbn [c_st set_st set_store set_timer]. intros E.
    apply some2 in E as (_ & <-). reflexivity.
  - intros Hin. destruct (R4 ltac:(rewrite <- Hf in *; exact Hin)) as [Q1 Q2]. rewrite Q1. unfold same_prefix in Q2. exact Q2.
Qed.

Lemma boot_deliver m0 b0 es c tr it rest bs a : length b0 = 512%nat -> bytes_ok b0 -> Forall ev_ok es ->
  boot m0 b0 es = Some (c, tr) -> held (c_store c) = Some (it :: rest) -> wire_after None tr = Some [] ->
  c_fd c = true -> encode_rsp a = EncOk bs -> replies_to (i_req it) a -> q_tid (i_req it) < 65536 ->
  0 <= q_addr (i_req it) < 256 -> a_func a <> 143 ->
  exists c' os data, boot m0 b0 (es ++ [EData (RxBytes bs)]) =
      Some (c', tr ++ [(EData (RxBytes bs), ORsp (i_client it) (q_tid (i_req it)) true 0 data :: os)]) /\
    rsps os = [] /\ (In (a_func a) [3; 4; 5; 6] -> data = firstn (Z.to_nat (a_nbytes a)) (a_data a)).
Proof.
  intros Hl Hb Hev E Hh Hw Hfd He Hr Ht Ha Hf.
  destruct (step_back m0 b0 es (EData (RxBytes bs)) c tr Hl Hb) as (d & HC & HI & R & Hback); auto.
  { apply Forall_app. split; [auto|]. constructor; [|constructor]. cbn. destruct Hr as (Hok & _).
    destruct (encode_rsp_wf _ _ Hok He) as [(Hbs & _) _]. exact Hbs. }
  rewrite Hw in HI. rewrite (held_rc _ _ HC) in Hh. injection Hh as Hh.
  assert (En : enabled d (EData (RxBytes bs)) = true) by (rewrite <- (enabled_sim _ _ _ HC); exact Hfd).
  destruct (deliver d it rest bs a HI Hh En He Hr Ht Ha Hf) as (d' & os & data & Es & Hos & Hd).
  destruct (Hback _ _ Es) as (c' & Eb & _). eauto 10.
Qed.

(** What a reply can carry. *)
Lemma decode_limits buf a0 a rest : bytes_ok buf -> decode_rsp buf a0 = DOk a rest ->
  0 <= a_tid a < 65536 /\ a_func a <> 1 /\ a_func a <> 2.
Proof.
  intros Hb E. do 8 (destruct buf as [|? buf]; [try discriminate; unfold decode_rsp, rdBe in E; cbn [rd] in E; try (destruct (negb _) in E); discriminate|]).
  unfold bytes_ok in Hb. repeat match type of Hb with Forall _ (_ :: _) => apply Forall_cons_iff in Hb as [?Hz Hb] end. unfold is_byte in *.
  unfold decode_rsp, rdBe in E. cbn [rd] in E. destruct (negb _) in E; [discriminate|].
  destruct (Z.eqb_spec z6 modbusErrorFn) as [->|Hne] in E.
  { destruct buf; cbn in E; inversion E; subst; cbn; unfold modbusErrorFn; lia. }
  destruct (is_read_regs z6) eqn:E1.
  { destruct buf as [|nb buf]; cbn [rd] in E; [discriminate|]. destruct (negb (_ =? nb + 3)) in E; [discriminate|]. destruct (negb _) in E; [discriminate|].
    destruct (rd_pairs _ _ _ _) as [[? ?]|] in E; [|discriminate]. inversion E; subst; cbn. unfold is_read_regs, readHoldingRegisters, readInputRegisters in E1. lia. }
  destruct (is_single z6) eqn:E2.
  { destruct (negb _) in E; [discriminate|]. do 4 (destruct buf as [|? buf]; cbn [rd] in E; [discriminate|]).
    destruct (_ <? _)%nat in E; [|discriminate]. inversion E; subst; cbn. unfold is_single, forceSingleCoil, presetSingleRegister in E2. lia. }
  destruct (is_multi z6) eqn:E3; [|discriminate].
  destruct (negb _) in E; [discriminate|]. do 4 (destruct buf as [|? buf]; cbn [rd] in E; [discriminate|]).
  inversion E; subst; cbn. unfold is_multi, presetMultipleRegisters in E3. lia.
Qed.

Lemma skipn_bytes k (l : list Z) : bytes_ok l -> bytes_ok (skipn k l).
Proof. unfold bytes_ok. intros H. rewrite <- (firstn_skipn k l) in H. apply Forall_app in H. apply H. Qed.

Lemma run_success_limits es : forall d w d' tr, CI d w -> Forall ev_ok es -> lc_run d es = Some (d', tr) ->
  Forall (fun x => forall c t err data, In (ORsp c t true err data) (snd x) -> 0 <= t < 65536) tr.
Proof.
  induction es as [|e es IH]; intros d w d' tr HI Hev E.
  - inversion E; subst. constructor.
  - inversion Hev; subst. runstep E. pose proof (step_ok _ _ _ _ _ HI H1 Hen Hst) as F.
    constructor; [|eapply IH; [apply F|exact H2|exact Hrun]].
    cbn [snd]. intros c t err data Hin.
    destruct (sf_ok _ _ _ _ _ F _ _ _ _ Hin) as (r & it & rest & _ & _ & Hid & a & rst & b & Hd & _ & Hb & _ & Ht & _).
    apply decode_limits in Hd; [|now apply skipn_bytes]. unfold ids in Hid. injection Hid as _ ->. rewrite <- Ht. apply Hd.
Qed.

Lemma run_bits es : forall d w d' tr, CI d w -> Forall ev_ok es -> lc_run d es = Some (d', tr) ->
  Forall (fun it => In (q_func (i_req it)) [1; 2]) (c_store d ++ submitted tr) ->
  Forall (fun x => forall c t err data, In (ORsp c t true err data) (snd x) -> data = []) tr.
Proof.
  induction es as [|e es IH]; intros d w d' tr HI Hev E Hq.
  - inversion E; subst. constructor.
  - inversion Hev; subst. runstep E. pose proof (step_ok _ _ _ _ _ HI H1 Hen Hst) as F.
    unfold submitted in Hq. cbn [flat_map fst] in Hq. fold (submitted tr') in Hq.
    apply Forall_app in Hq as [Hq1 Hq2]. apply Forall_app in Hq2 as [Hq2 Hq3].
    constructor.
    + cbn [snd]. intros c t err data Hin.
      destruct (sf_ok _ _ _ _ _ F _ _ _ _ Hin) as (r & it & rest & _ & Hs & Hid & a & rst & b & Hd & _ & Hb & _ & Ht & _ & Hc).
      apply decode_limits in Hd; [|now apply skipn_bytes]. rewrite Hs in Hq1. inversion Hq1; subst.
      destruct Hc as [(_ & _ & ->)|(_ & Hf & _)]; [reflexivity|]. exfalso. rewrite Hf in Hd. cbn in H3. intuition lia.
    + eapply IH; [apply F|exact H2|exact Hrun|]. apply Forall_app. split; [|exact Hq3].
      destruct (sf_store _ _ _ _ _ F) as [k Hk]. rewrite Hk.
      assert (Hall : Forall (fun it => In (q_func (i_req it)) [1; 2]) (c_store d ++ new_item d e)).
      { apply Forall_app. split; [auto|]. rewrite new_accepted. apply Forall_forall. intros x Hx.
        apply in_map_iff in Hx as (y & <- & Hy). unfold accepted_of in Hy. destruct e; try destruct Hy.
        destruct (refused (cp d) it); [destruct Hy|]. rewrite Forall_forall in Hq2. exact (Hq2 y Hy). }
      rewrite <- (firstn_skipn k) in Hall. apply Forall_app in Hall. apply Hall.
Qed.

Lemma boot_success_limits m0 b0 es c tr : length b0 = 512%nat -> bytes_ok b0 -> Forall ev_ok es ->
  boot m0 b0 es = Some (c, tr) ->
  Forall (fun x => forall c t err data, In (ORsp c t true err data) (snd x) -> 0 <= t < 65536) tr.
Proof.
  intros Hl Hb Hev E. destruct (boot_list _ _ _ _ _ Hl Hb Hev E) as (d & R & _ & _).
  eapply run_success_limits; [apply (ci_new b0 Hl Hb)|exact Hev|exact R].
Qed.

Lemma boot_bits m0 b0 es c tr : length b0 = 512%nat -> bytes_ok b0 -> Forall ev_ok es ->
  boot m0 b0 es = Some (c, tr) -> Forall (fun it => In (q_func (i_req it)) [1; 2]) (submitted tr) ->
  Forall (fun x => forall c t err data, In (ORsp c t true err data) (snd x) -> data = []) tr.
Proof.
  intros Hl Hb Hev E Hq. destruct (boot_list _ _ _ _ _ Hl Hb Hev E) as (d & R & _ & _).
  eapply run_bits; [apply (ci_new b0 Hl Hb)|exact Hev|exact R|exact Hq].
Qed.

(** A connected client whose link reported an error sits idle: no event but a new
    request has an effect. *)
Lemma idle_stuck es : forall d w d' tr, CI d w -> c_st d = CConnected -> c_fd d = false -> Forall no_req es ->
  lc_run d es = Some (d', tr) -> d' = d /\ Forall (fun x => snd x = []) tr.
Proof.
  induction es as [|e es IH]; intros d w d' tr HI Hs Hf Hn E.
  - inversion E; subst. auto.
  - inversion Hn; subst. runstep E.
    assert (Hd : d1 = d /\ os = []).
    { destruct e; try contradiction; unfold lc_step, c_step in Hst; cbn in Hen; try rewrite Hs in Hst; try rewrite Hf in Hen; try discriminate.
      - apply some2 in Hst as (<- & <-). auto.
      - rewrite (ci_timer _ _ HI), Hs in Hen. discriminate. }
    destruct Hd as [-> ->]. destruct (IH d w d' tr' HI Hs Hf H2 Hrun) as [-> Hr]. auto.
Qed.

(** A client with more than 260 octets in its buffer ignores the link. *)
Lemma deaf c r : 260 < c_len c -> c_st c = CConnected ->
  c_step as_empty as_front as_pop as_push c (EData r) = Some (c, []).
Proof.
  intros H Hs. unfold c_step, on_data. rewrite Hs. unfold c_receive, maxAduLen.
  destruct (Z.ltb_spec 260 (c_len c)); [reflexivity|lia].
Qed.
