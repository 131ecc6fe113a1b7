(** The concrete ADU storage behaves like a bounded list. *)
From Verif Require Import Base QueueModel QueueSpec QueueRun QueueProofs PoolProofs MsgStorageModel MsgStorageProofs
  ModbusCodecModel ModbusClientModel.
Local Open Scope Z_scope.

Definition slot_is (adus : list slot) (m : memory) (id : Z) (it : item) : Prop :=
  exists sl, nth_error adus (Z.to_nat id) = Some sl /\ slot_view m sl = it /\
    0 <= q_nbytes (sl_req sl) <= 260 /\
    (sl_ptr sl = PNull \/ sl_ptr sl = PBuf (260 * id)).

Record RS (s : astore) (l : list item) : Prop := mkRS {
  rs_fcap : q_cap (as_free s) = as_capacity;
  rs_bcap : q_cap (as_busy s) = as_capacity;
  rs_len : length (as_adus s) = as_capacity;
  rs_rep : exists free busy, Rq (as_free s) free /\ Rq (as_busy s) busy /\
      Permutation (free ++ busy) (zrange 0 as_capacity) /\
      Forall2 (slot_is (as_adus s) (as_mem s)) busy l
}.

Lemma cap_size : size_t_ok as_capacity.
Proof. unfold size_t_ok, as_capacity. lia. Qed.

Lemma rs_new m0 : exists s, as_new m0 = Some s /\ RS s [].
Proof.
  unfold as_new.
  destruct (st_fill_spec as_capacity (q_new as_capacity) [] 0 (Rq_new as_capacity ltac:(unfold as_capacity; lia) cap_size))
    as (q & E & HR & Hc); [unfold as_capacity; cbn; lia|lia|unfold as_capacity; lia|].
  rewrite E. cbn [option_map]. eexists; split; [reflexivity|].
  constructor; cbn [as_free as_busy as_adus as_mem]; auto.

  - exists (zrange 0 as_capacity), []. split; [exact HR|]. split; [apply Rq_new; [unfold as_capacity; lia|apply cap_size]|].
    split; [now rewrite app_nil_r|constructor].
Qed.

Lemma rs_length s l : RS s l -> (length l <= as_capacity)%nat.
Proof.
  intros [_ _ _ (free & busy & _ & _ & Hp & Hf)].
  apply Permutation_length in Hp. rewrite app_length, zrange_length in Hp.
  apply forall2_length in Hf. lia.
Qed.

Lemma rs_empty s l : RS s l -> as_empty s = ls_empty l.
Proof.
  intros [_ _ _ (free & busy & _ & HRb & Hp & Hf)]. unfold as_empty. rewrite (Rq_empty _ _ HRb).
  inversion Hf; reflexivity.
Qed.

Lemma rs_front s l : RS s l -> as_front s = ls_front l.
Proof.
  intros HS. pose proof (rs_empty _ _ HS) as E. destruct HS as [_ _ _ (free & busy & _ & HRb & Hp & Hf)].
  unfold as_front. rewrite E. inversion Hf as [|id it busy' r Hid Hf' E1 E2]; subst; [reflexivity|].
  cbn [ls_empty ls_front]. rewrite (Rq_front _ _ _ HRb).
  destruct Hid as (sl & -> & Hv & _). cbn. now rewrite Hv.
Qed.

Lemma rs_pop s l : RS s l -> exists s' l', as_pop s = Some s' /\ ls_pop l = Some l' /\ RS s' l'.
Proof.
  intros HS. pose proof (rs_empty _ _ HS) as E.
  unfold as_pop. rewrite E. destruct l as [|it r].
  { cbn. eauto 6. }
  destruct HS as [Hfc Hbc Hl (free & busy & HRf & HRb & Hp & Hf)].
  inversion Hf as [|id x busy' r' Hid Hf' E1 E2]; subst.
  cbn [ls_empty ls_pop]. rewrite (Rq_front _ _ _ HRb).
  pose proof (Permutation_length Hp) as Hlen. rewrite app_length, zrange_length in Hlen. cbn [length] in Hlen.
  destruct (Rq_push _ _ id HRf) as (f' & E3 & HRf' & Hcf'); [lia|]. rewrite E3.
  destruct (Rq_pop _ _ _ HRb) as (b' & E4 & HRb' & Hcb'). rewrite E4.
  exists (mkAS f' b' (as_adus s) (as_mem s)), r. split; [reflexivity|]. split; [reflexivity|].
  constructor; cbn [as_free as_busy as_adus as_mem]; try congruence.
  exists (free ++ [id]), busy'. split; [auto|]. split; [auto|]. split; [|auto].
  rewrite <- app_assoc. exact Hp.
Qed.

Lemma slot_other adus m id id' it sl bs :
  slot_is adus m id it -> 0 <= id -> 0 <= id' -> id <> id' -> Z.of_nat (length bs) <= 260 ->
  slot_is (upd adus (Z.to_nat id') sl) (write_bytes m (260 * id') bs) id it.
Proof.
  intros (x & E & Hv & Hn & Hp) H1 H2 Hne Hb. exists x. split; [|split; [|auto]].
  - rewrite nth_error_upd_neq by lia. auto.
  - rewrite <- Hv. unfold slot_view. f_equal. f_equal.
    destruct Hp as [Hp|Hp]; rewrite Hp; auto. apply read_bytes_ext. intros y Hy.
    apply write_bytes_out. lia.
Qed.

Lemma slot_other_nowrite adus m id id' it sl :
  slot_is adus m id it -> 0 <= id -> 0 <= id' -> id <> id' -> slot_is (upd adus (Z.to_nat id') sl) m id it.
Proof.
  intros (x & E & Hv & Hn & Hp) H1 H2 Hne. exists x. split; auto.
  rewrite nth_error_upd_neq by lia. auto.
Qed.

Lemma rs_push s l it : RS s l -> 0 <= q_nbytes (i_req it) ->
  q_nbytes (i_req it) <= Z.of_nat (length (q_data (i_req it))) ->
  exists s' l' b, as_push s it = Some (s', b) /\ ls_push l it = Some (l', b) /\ RS s' l'.
Proof.
  intros HS Hn0 Hnl. pose proof (rs_length _ _ HS) as Hll.
  pose proof HS as HS0.
  destruct HS as [Hfc Hbc Hl (free & busy & HRf & HRb & Hp & Hf)].
  pose proof (Permutation_length Hp) as Hlen. rewrite app_length, zrange_length in Hlen.
  pose proof (forall2_length _ _ _ Hf) as Hlb.
  unfold as_push, ls_push. rewrite (Rq_empty _ _ HRf).
  destruct free as [|id free].
  - cbn in Hlen. destruct (Nat.ltb_spec (length l) as_capacity); [lia|]. cbn [negb].
    exists s, l, false. auto.
  - cbn in Hlen. destruct (Nat.ltb_spec (length l) as_capacity); [|lia]. cbn [negb].
    rewrite (Rq_front _ _ _ HRf).
    assert (Hid : 0 <= id < 64).
    { assert (I : In id (zrange 0 as_capacity)) by (eapply Permutation_in; [exact Hp|cbn; auto]).
      apply in_zrange in I. unfold as_capacity in I. lia. }
    assert (Hnin : ~ In id busy).
    { assert (ND : NoDup ((id :: free) ++ busy)) by (eapply Permutation_NoDup; [symmetry; exact Hp|apply zrange_nodup]).
      cbn in ND. inversion ND as [|? ? Hn _]; subst. intros I. apply Hn, in_or_app. auto. }
    assert (Hbr : forall i, In i busy -> 0 <= i).
    { intros i Hi. assert (I : In i (zrange 0 as_capacity)) by (eapply Permutation_in; [exact Hp|cbn; right; apply in_or_app; auto]).
      apply in_zrange in I. lia. }
    destruct (Nat.ltb_spec (Z.to_nat id) (length (as_adus s))) as [Hidl|Hidl]; [|rewrite Hl in Hidl; unfold as_capacity in *; lia].
    destruct (Z.ltb_spec maxAduLen (q_nbytes (i_req it))) as [Hbig|Hsmall].
    + exists (mkAS (as_free s) (as_busy s) (upd (as_adus s) (Z.to_nat id) (mkSlot (i_client it) (i_req it) PExt)) (as_mem s)), l, false.
      split; [reflexivity|]. split; [reflexivity|].
      constructor; cbn [as_free as_busy as_adus as_mem]; auto.
      * now rewrite upd_length.
      * exists (id :: free), busy. split; [auto|]. split; [auto|]. split; [auto|].
        clear - Hf Hnin Hid Hbr. induction Hf as [|i x bs xs Hix Hf IH]; constructor.
        -- apply slot_other_nowrite; auto; [apply Hbr; cbn; auto|lia|intros ->; apply Hnin; cbn; auto].
        -- apply IH; [intros I; apply Hnin; cbn; auto|intros; apply Hbr; cbn; auto].
    + unfold maxAduLen in *.
      destruct (Z.leb_spec (q_nbytes (i_req it)) (Z.of_nat (length (q_data (i_req it))))) as [_|]; [|lia]. cbn [negb].
      destruct (Rq_push _ _ id HRb) as (b' & E3 & HRb' & Hcb'); [lia|].
      destruct (Rq_pop _ _ _ HRf) as (f' & E4 & HRf' & Hcf').
      assert (Hperm : Permutation (free ++ busy ++ [id]) (zrange 0 as_capacity)).
      { etransitivity; [|exact Hp]. cbn. rewrite app_assoc. symmetry. apply Permutation_cons_append. }
      assert (Hbnd : (260 * id + q_nbytes (i_req it) <=? 260 * Z.of_nat as_capacity) = true).
      { unfold as_capacity. lia. }
      destruct (Z.eqb_spec (q_nbytes (i_req it)) 0) as [Hz|Hz].
      * rewrite Hbnd. cbn [negb]. rewrite E3, E4.
        eexists _, _, true. split; [reflexivity|]. split; [reflexivity|].
        constructor; cbn [as_free as_busy as_adus as_mem]; try congruence.
        -- now rewrite !upd_length.
        -- exists free, (busy ++ [id]). split; [auto|]. split; [auto|]. split; [auto|].
           apply Forall2_app.
           ++ clear - Hf Hnin Hid Hbr. induction Hf as [|i x bs xs Hix Hf IH]; constructor.
              ** apply slot_other_nowrite; [apply slot_other_nowrite; [auto|apply Hbr; cbn; auto|lia|intros ->; apply Hnin; cbn; auto]|apply Hbr; cbn; auto|lia|intros ->; apply Hnin; cbn; auto].
              ** apply IH; [intros I; apply Hnin; cbn; auto|intros; apply Hbr; cbn; auto].
           ++ constructor; [|constructor]. eexists. split; [apply nth_error_upd_eq; rewrite upd_length; lia|].
              unfold slot_view, stored. cbn [sl_req sl_client sl_ptr]. rewrite Hz. cbn [Z.to_nat firstn].
              split; [reflexivity|]. split; [lia|]. auto.
      * rewrite Hbnd. cbn [negb]. rewrite E3, E4.
        eexists _, _, true. split; [reflexivity|]. split; [reflexivity|].
        assert (Hfl : length (firstn (Z.to_nat (q_nbytes (i_req it))) (q_data (i_req it))) = Z.to_nat (q_nbytes (i_req it)))
          by (rewrite firstn_length; lia).
        constructor; cbn [as_free as_busy as_adus as_mem]; try congruence.
        -- now rewrite !upd_length.
        -- exists free, (busy ++ [id]). split; [auto|]. split; [auto|]. split; [auto|].
           apply Forall2_app.
           ++ assert (Hfl2 : Z.of_nat (length (firstn (Z.to_nat (q_nbytes (i_req it))) (q_data (i_req it)))) <= 260) by lia.
              clear - Hf Hnin Hid Hbr Hfl2. induction Hf as [|i x bs xs Hix Hf IH]; constructor.
              ** apply slot_other_nowrite; [apply slot_other; [auto|apply Hbr; cbn; auto|lia|intros ->; apply Hnin; cbn; auto|auto]|apply Hbr; cbn; auto|lia|intros ->; apply Hnin; cbn; auto].
              ** apply IH; [intros I; apply Hnin; cbn; auto|intros; apply Hbr; cbn; auto].
           ++ constructor; [|constructor]. eexists. split; [apply nth_error_upd_eq; rewrite upd_length; lia|].
              unfold slot_view, stored. cbn [sl_req sl_client sl_ptr q_tid q_func q_addr q_start q_nitems q_nbytes].
              split; [|split; [lia|auto]]. f_equal. f_equal. set (d := firstn _ (q_data (i_req it))) in *. rewrite <- Hfl. apply read_write_same.
Qed.

(** * Simulation of the concrete client by the list client *)
Definition RC (c : client astore) (d : client (list item)) : Prop :=
  c_st c = c_st d /\ c_fd c = c_fd d /\ c_timer c = c_timer d /\ RS (c_store c) (c_store d) /\
  c_buf c = c_buf d /\ c_pos c = c_pos d /\ c_len c = c_len d.

(** Two results agree. *)
Definition Ro (x : option (client astore * list cout)) (y : option (client (list item) * list cout)) : Prop :=
  match x, y with
  | Some (c, o), Some (d, p) => RC c d /\ o = p
  | None, None => True
  | _, _ => False
  end.
Definition Rs (x : option (client astore * list cout * cstatus)) (y : option (client (list item) * list cout * cstatus)) : Prop :=
  match x, y with
  | Some (c, o, s), Some (d, p, t) => RC c d /\ o = p /\ s = t
  | None, None => True
  | _, _ => False
  end.

Notation AF f := (f astore as_empty as_front as_pop as_push) (only parsing).

Lemma flush_sim k : forall s l, RS s l ->
  match flush as_empty as_front as_pop k s, flush ls_empty ls_front ls_pop k l with
  | Some (s', o), Some (l', p) => RS s' l' /\ o = p
  | None, None => True
  | _, _ => False
  end.
Proof.
  induction k as [|k IH]; intros s l HS; cbn [flush]; rewrite (rs_empty _ _ HS); destruct (ls_empty l) eqn:El; auto.
  rewrite (rs_front _ _ HS). destruct (rs_pop _ _ HS) as (s' & l' & E1 & E2 & HS'). rewrite E1, E2.
  destruct (ls_front l); [|exact I]. specialize (IH _ _ HS').
  destruct (flush as_empty as_front as_pop k s') as [[? ?]|], (flush ls_empty ls_front ls_pop k l') as [[? ?]|]; auto.
  destruct IH as [? ->]. auto.
Qed.

Ltac rc := match goal with H : RC _ _ |- _ => pose proof H as (?Hst & ?Hfd & ?Htm & ?HS & ?Hb & ?Hp & ?Hl) end.
Ltac mkrc := unfold RC, set_st, set_fd, set_timer, set_store, set_buf; cbn [c_st c_fd c_timer c_store c_buf c_pos c_len];
  repeat match goal with |- _ /\ _ => split end; auto; try congruence.

Lemma on_exit_sim c d : RC c d -> Ro (on_exit as_pop c) (on_exit ls_pop d).
Proof.
  intros H. pose proof H as H0. rc. unfold on_exit. rewrite Hst. destruct (c_st d) eqn:Es; cbn [Ro]; auto;
    try (split; [mkrc|reflexivity]).
  destruct (rs_pop _ _ HS) as (s' & l' & E1 & E2 & HS'). rewrite E1, E2. split; [mkrc|reflexivity].
Qed.

Lemma on_enter_sim c d cok : RC c d ->
  RC (fst (on_enter c cok)) (fst (on_enter d cok)) /\ snd (on_enter c cok) = snd (on_enter d cok).
Proof.
  intros H. rc. unfold on_enter. rewrite Hst. destruct (c_st d) eqn:Es; cbn [fst snd]; try (split; [mkrc|reflexivity]).
  rewrite Hfd. destruct (c_fd d || negb cok); cbn [fst snd]; split; try reflexivity; mkrc.
Qed.

Lemma transit_sim c d st cok : RC c d -> Ro (transit as_pop c st cok) (transit ls_pop d st cok).
Proof.
  intros H. pose proof H as H0. rc. unfold transit. rewrite Hst. destruct (cst_eqb (c_st d) st); [split; auto|].
  pose proof (on_exit_sim c d H0) as P.
  destruct (on_exit as_pop c) as [[c1 o1]|], (on_exit ls_pop d) as [[d1 p1]|]; cbn [Ro] in P; try contradiction; auto.
  destruct P as [P ->].
  assert (P' : RC (set_st c1 st) (set_st d1 st)) by (clear - P; rc; mkrc).
  pose proof (on_enter_sim _ _ cok P') as [Q1 Q2].
  destruct (on_enter (set_st c1 st) cok) as [c2 o2], (on_enter (set_st d1 st) cok) as [d2 p2]. cbn [fst snd Ro] in *.
  subst. auto.
Qed.

Lemma fail_all_sim c d : RC c d -> Ro (fail_all as_empty as_front as_pop c) (fail_all ls_empty ls_front ls_pop d).
Proof.
  intros H. pose proof H as H0. rc. unfold fail_all. pose proof (flush_sim (S as_capacity) _ _ HS) as P.
  destruct (flush as_empty as_front as_pop (S as_capacity) (c_store c)) as [[s' o1]|],
           (flush ls_empty ls_front ls_pop (S as_capacity) (c_store d)) as [[l' p1]|]; try contradiction; auto.
  destruct P as [P ->]. unfold close.
  pose proof (transit_sim (set_fd (set_store c s') false) (set_fd (set_store d l') false) CBackoff false) as Q.
  assert (RC (set_fd (set_store c s') false) (set_fd (set_store d l') false)) by mkrc. specialize (Q H1).
  destruct (transit as_pop _ CBackoff false) as [[c2 o3]|], (transit ls_pop _ CBackoff false) as [[d2 p3]|];
    cbn [Ro] in *; try contradiction; auto. destruct Q as [Q ->]. auto.
Qed.

Lemma c_send_sim c d sok : RC c d -> Rs (c_send as_empty as_front as_pop c sok) (c_send ls_empty ls_front ls_pop d sok).
Proof.
  intros H. pose proof H as H0. rc. unfold c_send. rewrite (rs_empty _ _ HS), (rs_front _ _ HS).
  destruct (ls_empty (c_store d)); [cbn; auto|]. destruct (ls_front (c_store d)) as [it|]; [|exact I].
  destruct (encode_req (i_req it)); cbn [Rs]; auto.
  - rewrite Hfd. destruct (sok && c_fd d); cbn [Rs]; auto.
  - destruct (rs_pop _ _ HS) as (s' & l' & E1 & E2 & HS'). rewrite E1, E2. cbn. split; [mkrc|auto].
Qed.

Lemma c_receive_sim c d r : RC c d -> Rs (c_receive as_empty as_front c r) (c_receive ls_empty ls_front d r).
Proof.
  intros H. pose proof H as H0. rc. unfold c_receive. rewrite Hl, Hfd, Hb, Hp, (rs_empty _ _ HS), (rs_front _ _ HS).
  destruct (maxAduLen <? c_len d); [cbn; auto|].
  destruct (if c_fd d then r else RxErr) as [| |bs0]; [cbn; auto|cbn; auto|].
  destruct (ls_empty (c_store d)); [cbn [Rs]; split; [mkrc|auto]|].
  destruct (frame_check _ _); cbn [Rs]; auto; try (split; [mkrc|auto]; fail).
  - destruct (ls_front (c_store d)) as [it|]; cbn [Rs]; auto. split; [mkrc|auto].
  - destruct (ls_front (c_store d)) as [it|]; cbn [Rs]; auto.
    destruct (decode_rsp _ _) as [a rest|rest|]; cbn [Rs]; auto; [|split; [mkrc|auto]].
    destruct (negb (q_tid (i_req it) =? a_tid a)); [split; [mkrc|auto]|].
    destruct (negb (q_addr (i_req it) =? a_addr a)); [split; [mkrc|auto]|].
    destruct (modbusErrorFn =? a_func a); [split; [mkrc|auto]|].
    destruct (negb (q_func (i_req it) =? a_func a)); (split; [mkrc|auto]).
Qed.

Lemma andthen_sim x y k k' : Ro x y -> (forall c d, RC c d -> Ro (k c) (k' d)) -> Ro (andthen x k) (andthen y k').
Proof.
  intros H Hk. destruct x as [[c o]|], y as [[d p]|]; cbn [Ro andthen] in *; try contradiction; auto.
  destruct H as [H ->]. specialize (Hk c d H).
  destruct (k c) as [[c' o2]|], (k' d) as [[d' p2]|]; cbn [Ro] in *; try contradiction; auto.
  destruct Hk as [Hk ->]. auto.
Qed.

Definition req_sane (e : cev) : Prop := match e with EReq it => 0 <= q_nbytes (i_req it) | _ => True end.

Lemma on_req_sim c d it : RC c d -> 0 <= q_nbytes (i_req it) ->
  q_nbytes (i_req it) <= Z.of_nat (length (q_data (i_req it))) ->
  Ro (on_req as_empty as_front as_pop as_push c it) (on_req ls_empty ls_front ls_pop ls_push d it).
Proof.
  intros H H1 H2. pose proof H as H0. rc. unfold on_req.
  destruct (rs_push _ _ it HS H1 H2) as (s' & l' & b & E1 & E2 & HS'). rewrite E1, E2.
  destruct b; [|split; [mkrc|auto]].
  rewrite Hst. assert (Q : RC (set_store c s') (set_store d l')) by mkrc.
  pose proof (flush_sim (S as_capacity) _ _ HS') as P.
  destruct (c_st d) eqn:Es; cbn [c_store set_store];
  try (destruct (flush as_empty as_front as_pop (S as_capacity) s') as [[s2 o1]|],
           (flush ls_empty ls_front ls_pop (S as_capacity) l') as [[l2 p1]|]; try contradiction; auto;
       destruct P as [P ->]; split; [mkrc|auto]);
  try (split; auto; fail).
  now apply transit_sim.
Qed.

Lemma c_step_sim c d e : RC c d -> req_sane e -> enabled c e = true ->
  Ro (c_step as_empty as_front as_pop as_push c e) (c_step ls_empty ls_front ls_pop ls_push d e).
Proof.
  intros H Hreq Hen. pose proof H as H0. rc. destruct e as [cok|it| |r| |sok cok]; cbn [c_step].
  - rewrite Hst. destruct (c_st d); try (split; auto). now apply transit_sim.
  - apply on_req_sim; auto. cbn in Hen. lia.
  - rewrite Hst. destruct (c_st d); try (split; auto). now apply transit_sim.
  - unfold on_data. rewrite Hst.
    pose proof (c_receive_sim c d r H0) as P.
    destruct (c_st d); try (split; auto; fail);
    destruct (c_receive as_empty as_front c r) as [[[c1 o1] st1]|], (c_receive ls_empty ls_front d r) as [[[d1 p1] st2]|];
      cbn [Rs] in P; try contradiction; try exact I; destruct P as (P & -> & ->);
    destruct st2; try (split; auto; fail);
    apply andthen_sim; try (split; auto; fail); intros; auto using fail_all_sim, transit_sim.
  - rewrite Hst. assert (RC (set_fd c false) (set_fd d false)) by mkrc.
    destruct (c_st d); try (split; auto; fail). now apply transit_sim.
  - unfold on_timer. assert (Q : RC (set_timer c None) (set_timer d None)) by mkrc.
    cbn [set_timer c_st]. rewrite Hst. change (mkC (c_st c) (c_fd c) None (c_store c) (c_buf c) (c_pos c) (c_len c)) with (set_timer c None) in *.
    destruct (c_st d) eqn:Es; try (split; auto; fail).
    + unfold close. apply andthen_sim; [split; [|reflexivity]; clear - Q; rc; mkrc|]. intros; now apply transit_sim.
    + pose proof (c_send_sim _ _ sok Q) as P.
      destruct (c_send as_empty as_front as_pop _ sok) as [[[c1 o1] st1]|],
               (c_send ls_empty ls_front ls_pop _ sok) as [[[d1 p1] st2]|];
        cbn [Rs] in P; try contradiction; try exact I; destruct P as (P & -> & ->).
      destruct st2; try (apply andthen_sim; [split; auto|]; intros; auto using fail_all_sim, transit_sim; fail).
      split; [|reflexivity]. clear - P. rc. mkrc.
    + cbn [set_timer c_store]. rewrite (rs_empty _ _ HS), (rs_front _ _ HS).
      destruct (ls_empty (c_store d)); [now apply transit_sim|].
      destruct (ls_front (c_store d)) as [it|]; [|exact I].
      apply andthen_sim; [split; auto|]. intros; now apply transit_sim.
    + now apply transit_sim.
Qed.

Lemma enabled_sim c d e : RC c d -> enabled c e = enabled d e.
Proof. intros H. rc. destruct e; cbn; try rewrite Hfd; try rewrite Htm; reflexivity. Qed.

(** The concrete client produces exactly the histories of the list client. *)
Lemma client_sim es : forall c d, RC c d -> Forall req_sane es ->
  match ac_run c es, lc_run d es with
  | Some (c', tr), Some (d', tr') => RC c' d' /\ tr = tr'
  | None, None => True
  | _, _ => False
  end.
Proof.
  unfold ac_run, lc_run. induction es as [|e es IH]; intros c d H Hs; cbn [c_run]; [auto|].
  inversion Hs as [|? ? Hs1 Hs2]; subst. rewrite (enabled_sim c d e H).
  destruct (enabled d e) eqn:Een; auto.
  pose proof (c_step_sim c d e H Hs1 ltac:(rewrite (enabled_sim c d e H); auto)) as P.
  destruct (c_step as_empty as_front as_pop as_push c e) as [[c1 o]|],
           (c_step ls_empty ls_front ls_pop ls_push d e) as [[d1 p]|]; cbn [Ro] in P; try contradiction; auto.
  destruct P as [P ->]. specialize (IH c1 d1 P Hs2).
  destruct (c_run as_empty as_front as_pop as_push c1 es) as [[c2 t]|],
           (c_run ls_empty ls_front ls_pop ls_push d1 es) as [[d2 t']|]; try contradiction; auto.
  destruct IH as [IH ->]. auto.
Qed.

Lemma client_sim_new es m0 b0 s : as_new m0 = Some s -> Forall req_sane es ->
  match ac_run (c_new s b0) es, lc_run (c_new [] b0) es with
  | Some (_, tr), Some (_, tr') => tr = tr'
  | None, None => True
  | _, _ => False
  end.
Proof.
  intros E Hs. destruct (rs_new m0) as (s' & E' & HS). rewrite E in E'. injection E' as <-.
  pose proof (client_sim es (c_new s b0) (c_new [] b0)) as P.
  assert (HR : RC (c_new s b0) (c_new [] b0)) by (unfold RC, c_new; cbn; auto 10). specialize (P HR Hs).
  destruct (ac_run _ es) as [[? ?]|], (lc_run _ es) as [[? ?]|]; auto. apply P.
Qed.
