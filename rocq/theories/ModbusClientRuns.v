(** Histories of the Modbus client. *)
From Verif Require Import Base MsgStorageModel ModbusCodecModel ModbusCodecSpec ModbusCodecProofs
  ModbusClientModel ModbusClientSpec ModbusStoreProofs ModbusClientProofs.
Local Open Scope Z_scope.

Definition cp (d : lclient) := map ids (c_store d).

Lemma answers_next out e os out' : answers out e os out' -> out' = out_next out e os.
Proof.
  unfold answers, out_next. destruct e; try (intros ->; now rewrite skipn_app, skipn_all, Nat.sub_diag).
  destruct (refused out it); [tauto|]. intros ->. now rewrite skipn_app, skipn_all, Nat.sub_diag.
Qed.

Lemma answers_served out e os out' : answers out e os out' ->
  (match e with EReq it => if refused out it then 0 else length (rsps os) | _ => length (rsps os) end + length out')%nat =
  (length out + match e with EReq it => if refused out it then 0 else 1 | _ => 0 end)%nat.
Proof.
  unfold answers. destruct e; try (intros ->; rewrite app_length; lia).
  destruct (refused out it); [intros [_ ->]; lia|]. intros H. apply (f_equal (@length _)) in H.
  rewrite !app_length in H. cbn in H. lia.
Qed.

Lemma run_cons d e es d2 tr : lc_run d (e :: es) = Some (d2, tr) ->
  exists d1 os tr', enabled d e = true /\ lc_step d e = Some (d1, os) /\ lc_run d1 es = Some (d2, tr') /\ tr = (e, os) :: tr'.
Proof.
  unfold lc_run, lc_step. cbn [c_run]. destruct (enabled d e); [|discriminate].
  destruct (c_step _ _ _ _ d e) as [[d1 os]|]; [|discriminate].
  destruct (c_run _ _ _ _ d1 es) as [[d3 tr']|] eqn:E; [|discriminate].
  intros H. inversion H; subst. eauto 10.
Qed.

Ltac runstep E := apply run_cons in E as (?d1 & ?os & ?tr' & ?Hen & ?Hst & ?Hrun & ->).

Lemma run_inv es : forall d w d' tr, CI d w -> Forall ev_ok es -> lc_run d es = Some (d', tr) ->
  CI d' (wire_after w tr).
Proof.
  induction es as [|e es IH]; intros d w d' tr HI Hev E.
  - inversion E; subst. exact HI.
  - inversion Hev; subst. runstep E. cbn. eapply IH; eauto. eapply (sf_inv _ _ _ _ _ (step_ok _ _ _ _ _ HI H1 Hen Hst)).
Qed.

Lemma run_wire es : forall d w d' tr, CI d w -> Forall ev_ok es -> lc_run d es = Some (d', tr) -> one_on_wire w tr.
Proof.
  induction es as [|e es IH]; intros d w d' tr HI Hev E.
  - inversion E; subst. exact I.
  - inversion Hev; subst. runstep E. pose proof (step_ok _ _ _ _ _ HI H1 Hen Hst) as F. cbn. split.
    + intros Ht. destruct (sf_tx _ _ _ _ _ F) as [(Ht' & _)|(-> & _ & it & bs & _ & _ & ->)]; [congruence|auto].
    + eapply IH; eauto. apply F.
Qed.

Lemma run_once es : forall d w d' tr, CI d w -> Forall ev_ok es -> lc_run d es = Some (d', tr) ->
  peer_ok (cp d) w tr -> exactly_once (cp d) tr /\ unanswered (cp d) tr = cp d'.
Proof.
  induction es as [|e es IH]; intros d w d' tr HI Hev E Hp.
  - inversion E; subst. cbn. unfold cp. rewrite map_length. split; [apply (ci_store _ _ HI)|auto].
  - inversion Hev; subst. runstep E. pose proof (step_ok _ _ _ _ _ HI H1 Hen Hst) as F. cbn in Hp. destruct Hp as [Hp1 Hp2].
    pose proof (sf_ans _ _ _ _ _ F Hp1) as Ha. fold (cp d) in Ha. fold (cp d1) in Ha.
    pose proof (answers_next _ _ _ _ Ha) as En. rewrite <- En in Hp2.
    destruct (IH d1 _ d' tr' (sf_inv _ _ _ _ _ F) H2 Hrun Hp2) as [I1 I2].
    cbn. split; [|now rewrite <- En]. split; [unfold cp; rewrite map_length; apply (ci_store _ _ HI)|].
    exists (cp d1). auto.
Qed.

(** * Order of transmission *)
Lemma sublist_refl_nil {A} (l : list A) : sublist [] l.
Proof. constructor. Qed.
Lemma sublist_app_l {A} (l m p : list A) : sublist l m -> sublist l (p ++ m).
Proof. intros H. induction p; cbn; [auto|]. now constructor. Qed.
Lemma sublist_skipn {A} k : forall (l a b : list A), sublist l (skipn k a ++ b) -> sublist l (a ++ b).
Proof.
  induction k as [|k IH]; intros l a b H; [exact H|]. destruct a as [|x a]; cbn in *; [exact H|].
  constructor. now apply IH.
Qed.

Definition accepted_of (d : lclient) (e : cev) : list item :=
  match e with EReq it => if refused (cp d) it then [] else [it] | _ => [] end.
Lemma new_accepted d e : new_item d e = map stored (accepted_of d e).
Proof. unfold new_item, accepted_of, cp. destruct e; auto. now destruct (refused _ _). Qed.

Definition sent_as (it : item) (bs : list Z) : Prop :=
  req_ok (i_req it) /\ encode_req (i_req (stored it)) = EncOk bs.

Lemma skipn_map {A B} (f : A -> B) k l : skipn k (map f l) = map f (skipn k l).
Proof. revert l. induction k; intros [|x l]; cbn; auto. Qed.

Lemma run_order es : forall d w d' tr P, CI d w -> Forall ev_ok es -> lc_run d es = Some (d', tr) ->
  pend d = map stored P -> Forall (fun it => req_ok (i_req it)) P ->
  exists l, sublist l (P ++ submitted tr) /\ Forall2 sent_as l (transmitted tr).
Proof.
  induction es as [|e es IH]; intros d w d' tr P HI Hev E HP HPok.
  - inversion E; subst. exists []. split; constructor.
  - inversion Hev; subst. runstep E. pose proof (step_ok _ _ _ _ _ HI H1 Hen Hst) as F.
    assert (Hacc : Forall (fun it => req_ok (i_req it)) (accepted_of d e)).
    { unfold accepted_of. destruct e; auto. destruct (refused _ _); auto. }
    assert (Hsub : forall l m, sublist l (accepted_of d e ++ m) ->
        sublist l (match e with EReq it => [it] | _ => [] end ++ m)).
    { intros l m. unfold accepted_of. destruct e; auto. destruct (refused _ _); auto. intros; now constructor. }
    assert (Hsub2 : forall l p m, sublist l (p ++ accepted_of d e ++ m) ->
        sublist l (p ++ match e with EReq it => [it] | _ => [] end ++ m)).
    { intros l p. revert l. induction p as [|x p IHp]; intros l m H; cbn in *; [now apply Hsub|].
      inversion H; subst; constructor; auto. }
    unfold submitted, transmitted. cbn [flat_map fst snd]. fold (submitted tr') (transmitted tr').
    destruct (sf_tx _ _ _ _ _ F) as [(Ht & k & Hk)|(_ & Hn & it & bs & Hpd & Hee & Ht)].
    + rewrite new_accepted, HP, <- map_app, skipn_map in Hk.
      destruct (IH d1 _ d' tr' (skipn k (P ++ accepted_of d e)) (sf_inv _ _ _ _ _ F) H2 Hrun Hk) as (l & L1 & L2).
      { apply Forall_forall. intros x Hx. assert (In x (P ++ accepted_of d e)).
        { rewrite <- (firstn_skipn k). apply in_or_app. auto. }
        apply in_app_iff in H. destruct H; [eapply Forall_forall in HPok; eauto|eapply Forall_forall in Hacc; eauto]. }
      exists l. rewrite Ht. split; [|exact L2]. apply Hsub2. rewrite app_assoc. now apply (sublist_skipn k).
    + destruct P as [|x P]; [rewrite HP in Hpd; discriminate|]. rewrite HP in Hpd. cbn in Hpd.
      assert (Hx : stored x = it) by congruence. assert (HP1 : pend d1 = map stored P) by congruence.
      inversion HPok; subst.
      destruct (IH d1 _ d' tr' P (sf_inv _ _ _ _ _ F) H2 Hrun HP1 H4) as (l & L1 & L2).
      exists (x :: l). rewrite Ht. cbn. split.
      * constructor. rewrite new_accepted in Hn. apply map_eq_nil in Hn. apply Hsub2. rewrite Hn. exact L1.
      * constructor; [split; auto|exact L2].
Qed.

Lemma sent_on_wire it bs : sent_as it bs -> q_nbytes (i_req it) <= 260 \/ True -> on_wire it bs.
Proof.
  intros [Hok He] _. assert (Hs : req_ok (i_req (stored it))).
  { destruct Hok as (H1 & H2 & H3 & H4 & H5 & H6 & H7 & H8). unfold req_ok, stored. cbn.
    do 6 (split; [auto|]). split; [now apply firstn_bytes|]. rewrite firstn_length. unfold is_u16 in H6. lia. }
  split; [apply (encode_req_wf _ _ Hs He)|]. intros junk q0 Hl.
  destruct (req_roundtrip _ _ junk q0 Hs He Hl) as (q' & E & R). exists q'. split; [exact E|].
  destruct R as (R1 & R2 & R3 & R4 & R5 & R6). cbn in *. unfold req_received. do 5 (split; [auto|]).
  intros Hin. destruct (R6 Hin) as [R7 R8]. split; [auto|]. unfold same_prefix in *. rewrite R8.
  now rewrite firstn_firstn, Nat.min_id.
Qed.

(** * Responses name submitted requests *)
Lemma run_names es : forall d w d' tr sub, CI d w -> Forall ev_ok es -> lc_run d es = Some (d', tr) ->
  incl (cp d) (map ids sub) -> names_submitted sub tr.
Proof.
  induction es as [|e es IH]; intros d w d' tr sub HI Hev E Hs.
  - inversion E; subst. exact I.
  - inversion Hev; subst. runstep E. pose proof (step_ok _ _ _ _ _ HI H1 Hen Hst) as F. cbn.
    assert (Hm : map ids (match e with EReq it => [it] | _ => [] end) = match e with EReq it => [ids it] | _ => [] end) by (now destruct e).
    split.
    + intros x Hx. apply (sf_ids _ _ _ _ _ F) in Hx. rewrite map_app, Hm. apply in_app_iff in Hx.
      apply in_or_app. destruct Hx; [left; now apply Hs|auto].
    + eapply (IH d1 _ d' tr'); [apply F|auto|exact Hrun|]. intros x Hx. rewrite map_app, Hm.
      destruct (sf_store _ _ _ _ _ F) as (k & Hk). unfold cp in Hx. rewrite Hk in Hx.
      assert (Hx' : In x (map ids (c_store d ++ new_item d e))).
      { rewrite <- (firstn_skipn k (c_store d ++ new_item d e)), map_app. apply in_or_app. auto. }
      rewrite map_app in Hx'. apply in_app_iff in Hx'. apply in_or_app. destruct Hx' as [Hx'|Hx']; [left; now apply Hs|right].
      unfold new_item in Hx'. destruct e; try contradiction. destruct (refused _ _); [contradiction|]. exact Hx'.
Qed.

(** * Success responses are backed *)
Lemma rd_pairs_swap k : forall i data r d' r', rd_pairs k i data r = Some (d', r') -> (i <= length data)%nat ->
  firstn (i + 2 * k) d' = firstn i data ++ swap16 (firstn (2 * k) r) /\ r' = skipn (2 * k) r.
Proof.
  induction k as [|k IH]; intros i data r d' r' E Hi; cbn [rd_pairs] in E.
  - inversion E; subst. rewrite Nat.add_0_r. cbn. now rewrite app_nil_r.
  - destruct r as [|hi [|lo r]]; try discriminate.
    destruct (Nat.ltb_spec (S i) (length data)) as [Hlt|Hlt]; [|discriminate].
    destruct (IH _ _ _ _ _ E) as [E1 E2]; [rewrite !upd_length; lia|].
    assert (E3 : firstn (S (S i)) (upd (upd data (S i) hi) i lo) = firstn i data ++ [lo; hi]).
    { clear - Hlt. revert i Hlt. induction data as [|x data IHd]; intros i Hlt; [cbn in Hlt; lia|].
      destruct i as [|i]; [destruct data; [cbn in Hlt; lia|reflexivity]|].
      cbn [upd firstn app]. f_equal. apply IHd. cbn in Hlt. lia. }
    replace (i + 2 * S k)%nat with (S (S i) + 2 * k)%nat by lia. rewrite E1, E3.
    replace (2 * S k)%nat with (S (S (2 * k))) by lia. cbn [firstn skipn swap16]. split; [|exact E2].
    rewrite <- app_assoc. reflexivity.
Qed.

Lemma decode_backed it b len rx a rest err data :
  length b = 512%nat -> bytes_ok b -> 0 <= len <= 512 -> firstn (Z.to_nat len) b = rx -> isAduValid b len = true ->
  decode_rsp b rsp0 = DOk a rest -> a_tid a = q_tid (i_req it) -> a_addr a = q_addr (i_req it) ->
  ((a_func a = 143 /\ err = a_error a /\ data = []) \/
   (a_func a <> 143 /\ a_func a = q_func (i_req it) /\ err = 0 /\ data = firstn (Z.to_nat (a_nbytes a)) (a_data a))) ->
  backed it rx err data.
Proof.
  intros Hb Hby Hl Hrx Hv Hd Ht Ha Hc.
  do 13 (destruct b as [|? b]; [discriminate|]).
  unfold isAduValid, aduPktLen, aduHdrLen, maxAduLen in Hv. cbn [nth] in Hv.
  unfold decode_rsp, rdBe in Hd. cbn [rd] in Hd.
  unfold bytes_ok in Hby. repeat match type of Hby with Forall _ (_ :: _) => apply Forall_cons_iff in Hby as [?Hz Hby] end. unfold is_byte in *.
  destruct (Z.eqb_spec (z1 * 256 + z2) modbusProtocolId) as [Hpr|Hpr]; cbn [negb] in Hd; [|discriminate].
  unfold modbusProtocolId in Hpr. assert (z1 = 0) by lia. assert (z2 = 0) by lia. subst z1 z2.
  assert (Hrx2 : rx = z :: z0 :: 0 :: 0 :: z3 :: z4 :: firstn (Z.to_nat len - 6) (z5 :: z6 :: z7 :: z8 :: z9 :: z10 :: z11 :: b)).
  { rewrite <- Hrx. replace (Z.to_nat len) with (S (S (S (S (S (S (Z.to_nat len - 6))))))) at 1 by lia. reflexivity. }
  assert (Hlb : length (firstn (Z.to_nat len - 6) (z5 :: z6 :: z7 :: z8 :: z9 :: z10 :: z11 :: b)) = (Z.to_nat len - 6)%nat).
  { apply firstn_length_le. cbn [length] in *. lia. }
  exists z, z0, z3, z4, (firstn (Z.to_nat len - 6) (z5 :: z6 :: z7 :: z8 :: z9 :: z10 :: z11 :: b)).
  split; [exact Hrx2|]. rewrite Hlb.
  assert (Hq : a_tid a = z * 256 + z0 /\ a_addr a = z5 /\ a_func a = z6).
  { destruct (z6 =? modbusErrorFn); [inversion Hd; auto|].
    destruct (is_read_regs z6). { destruct (negb (z3 * 256 + z4 =? z7 + 3)); [discriminate|].
      destruct (negb (z7 mod 2 =? 0)); [discriminate|]. destruct (rd_pairs _ _ _ _) as [[? ?]|]; [|discriminate]. inversion Hd; auto. }
    destruct (is_single z6). { destruct (negb _); [discriminate|]. destruct (_ <? _)%nat; [|discriminate]. inversion Hd; auto. }
    destruct (is_multi z6). { destruct (negb _); [discriminate|]. inversion Hd; auto. }
    discriminate. }
  destruct Hq as (Q1 & Q2 & Q3). split; [congruence|]. split; [lia|].
  destruct Hc as [(Hf & -> & ->)|(Hf0 & Hf & -> & ->)].
  - left. split; [reflexivity|]. intros H3. rewrite Q3 in Hf. subst z6.
    change (143 =? modbusErrorFn) with true in Hd. cbv iota in Hd. inversion Hd; subst a. cbn in *. subst z5.
    replace (Z.to_nat len - 6)%nat with (S (S (S (Z.to_nat len - 9)))) by lia. cbn. eauto.
  - right. split; [reflexivity|].
    assert (Hff : q_func (i_req it) = z6) by congruence. assert (Haa : q_addr (i_req it) = z5) by congruence.
    rewrite Hff, Haa. rewrite Q3 in Hf0. clear Hf Hff Haa Q1 Q2 Ht Ha Hlb Hrx2 Hrx.
    destruct (Z.eqb_spec z6 modbusErrorFn) as [E0|_]; [unfold modbusErrorFn in E0; congruence|].
    destruct (is_read_regs z6) eqn:Er.
    { destruct (Z.eqb_spec (z3 * 256 + z4) (z7 + 3)) as [El|El]; cbn [negb] in Hd; [|discriminate].
      destruct (Z.eqb_spec (z7 mod 2) 0) as [Ev|Ev]; cbn [negb] in Hd; [|discriminate].
      destruct (rd_pairs _ _ _ _) as [[dd rr]|] eqn:Ep; [|discriminate]. inversion Hd; subst a; cbn [a_nbytes a_data].
      apply rd_pairs_swap in Ep; [|lia]. destruct Ep as [Ep _].
      assert (Hev : (2 * pairs z7)%nat = Z.to_nat z7) by (apply pairs_even; lia).
      rewrite Hev in Ep. cbn [Nat.add firstn app] in Ep.
      exists (z7 :: firstn (Z.to_nat z7) (z8 :: z9 :: z10 :: z11 :: b)). split.
      - replace (Z.to_nat len - 6)%nat with (S (S (S (Z.to_nat z7)))) by lia. reflexivity.
      - left. split; [funcs; cbn; lia|]. eexists _, _. split; [reflexivity|]. split; [|exact Ep].
        rewrite firstn_length_le; [lia|]. cbn [length] in *. lia. }
    destruct (is_single z6) eqn:Es.
    { destruct (Z.eqb_spec (z3 * 256 + z4) 6) as [El|El]; cbn [negb] in Hd; [|discriminate].
      destruct (_ <? _)%nat; [|discriminate]. inversion Hd; subst a; cbn [a_nbytes a_data].
      exists [z7; z8; z9; z10]. split.
      - replace (Z.to_nat len - 6)%nat with 6%nat by lia. reflexivity.
      - right; left. split; [funcs; cbn; lia|]. exists z7, z8, z9, z10. split; reflexivity. }
    destruct (is_multi z6) eqn:Em; [|discriminate].
    destruct (Z.eqb_spec (z3 * 256 + z4) 6) as [El|El]; cbn [negb] in Hd; [|discriminate].
    inversion Hd; subst a; cbn [a_nbytes a_data].
    exists [z7; z8; z9; z10]. split.
    + replace (Z.to_nat len - 6)%nat with 6%nat by lia. reflexivity.
    + right; right. split; [funcs; cbn; lia|]. split; reflexivity.
Qed.

Lemma backed_stored it rx err data : backed (stored it) rx err data -> backed it rx err data.
Proof. intros H. exact H. Qed.

Lemma run_backed es : forall d w d' tr P, CI d w -> Forall ev_ok es -> lc_run d es = Some (d', tr) ->
  peer_ok (cp d) w tr -> incl (c_store d) (map stored P) -> successes_backed P w tr.
Proof.
  induction es as [|e es IH]; intros d w d' tr P HI Hev E Hp HP.
  - inversion E; subst. exact I.
  - inversion Hev; subst. runstep E. pose proof (step_ok _ _ _ _ _ HI H1 Hen Hst) as F. cbn in Hp. destruct Hp as [Hp1 Hp2].
    pose proof (sf_ans _ _ _ _ _ F Hp1) as Ha. fold (cp d) in Ha. fold (cp d1) in Ha.
    pose proof (answers_next _ _ _ _ Ha) as En. rewrite <- En in Hp2. cbn. split.
    + intros c t err data Hin.
      destruct (sf_ok _ _ _ _ _ F _ _ _ _ Hin) as (bs & it & rest & -> & Es & Hid & a & rst & b & Hd & Hb & Hby & Hrx & Ht & Had & Hc).
      assert (Hi : In it (map stored P)) by (apply HP; rewrite Es; cbn; auto).
      apply in_map_iff in Hi as (it0 & <- & Hi).
      destruct Hp1 as [Hp1|(rx & -> & _)]; [unfold cp in Hp1; rewrite Es in Hp1; discriminate|].
      exists it0, bs, rx. split; [auto|]. split; [now rewrite Hid|]. do 2 (split; [auto|]).
      pose proof (ci_wire _ _ HI) as (_ & _ & Hpos & _). rewrite Hpos in Hd. cbn [skipn] in Hd.
      destruct (Hrx rx eq_refl) as (len & Hl & Hf & Hv). apply backed_stored.
      eapply decode_backed; eauto.
    + eapply (IH d1 _ d' tr'); [apply F|auto|exact Hrun|exact Hp2|].
      intros x Hx. destruct (sf_store _ _ _ _ _ F) as (k & Hk). rewrite Hk in Hx.
      assert (Hx' : In x (c_store d ++ new_item d e)).
      { rewrite <- (firstn_skipn k (c_store d ++ new_item d e)). apply in_or_app. auto. }
      rewrite map_app. apply in_or_app. apply in_app_iff in Hx'. destruct Hx' as [Hx'|Hx']; [left; now apply HP|right].
      unfold new_item in Hx'. destruct e; try contradiction. destruct (refused _ _); [contradiction|]. cbn in *. tauto.
Qed.

(** * Progress *)

(** The [m] oldest requests cost at most this many timer expiries. *)
Definition cost (d : lclient) (m : nat) : nat :=
  match m with O => O | S k => (2 * m - match c_st d with CReceive => 1 | _ => 0 end)%nat end.

Lemma timer_progress d w sok cok d' os m : CI d w -> lc_step d (ETimer sok cok) = Some (d', os) ->
  (0 < m <= length (c_store d))%nat ->
  (c_store d' = c_store d /\ c_st d <> CReceive /\ c_st d' = CReceive) \/
  (exists k, c_store d' = skipn (S k) (c_store d)).
Proof.
  intros HI E Hm. openCI HI. unfold lc_step, c_step, on_timer in E.
  destruct d as [st fd tm s b p l]; cbn [c_st c_fd c_timer c_store c_buf c_pos c_len set_timer] in *.
  destruct (may_hold st) eqn:Eh; [|rewrite (Hidle eq_refl) in Hm; cbn in Hm; lia].
  destruct st; try discriminate Eh.
  - unfold c_send in E. cbn [set_timer c_st c_fd c_timer c_store c_buf c_pos c_len] in E.
    destruct s as [|it s]; [cbn in Hm; lia|]. cbn [ls_empty ls_front] in E.
    destruct (encode_req (i_req it)) as [bs|bs| |] eqn:Ee in E; try discriminate.
    + destruct (sok && fd) eqn:Es in E.
      * cbn in E. apply some2 in E as (<- & <-). left. cbn. split; [auto|]. split; [discriminate|auto].
      * cbn [andthen] in E.
        rewrite fail_all_list in E; [|exact Hsto|discriminate]. cbn in E. apply some2 in E as (<- & <-).
        right. exists (length s). cbn. now rewrite skipn_all.
    + cbn in E. apply some2 in E as (<- & <-). right. exists 0%nat. reflexivity.
  - destruct s as [|it s]; [cbn in Hm; lia|]. cbn in E. apply some2 in E as (<- & <-). right. exists 0%nat. reflexivity.
Qed.

Lemma skipn_skipn {A} (a b : nat) (l : list A) : skipn a (skipn b l) = skipn (b + a) l.
Proof. revert l. induction b; intros [|x l]; cbn; auto. now rewrite skipn_nil. Qed.

(** How many of the [m] oldest remain after a step. *)
Lemma step_cost d w e d' os m : CI d w -> ev_ok e -> enabled d e = true -> lc_step d e = Some (d', os) ->
  (m <= length (c_store d))%nat ->
  exists k, c_store d' = skipn k (c_store d ++ new_item d e) /\ (m - k <= length (c_store d'))%nat /\
    (cost d' (m - k) + (match e with ETimer _ _ => if (0 <? m)%nat then 1 else 0 | _ => 0 end) <= cost d m)%nat.
Proof.
  intros HI Hev Hen Hst Hm. pose proof (step_ok _ _ _ _ _ HI Hev Hen Hst) as F.
  assert (Hlen : forall k, c_store d' = skipn k (c_store d ++ new_item d e) -> (m - k <= length (c_store d'))%nat).
  { intros k ->. rewrite skipn_length, app_length. lia. }
  assert (Hleave : c_st d = CReceive -> c_st d' <> CReceive -> exists k', c_store d' = skipn (S k') (c_store d ++ new_item d e)).
  { intros H1 H2. destruct (sf_tx _ _ _ _ _ F) as [(_ & k & Hk)|(Hw & _)].
    - exists k. unfold pend in Hk. rewrite H1 in Hk. assert (Hs : c_store d <> []).
      { pose proof (ci_wire _ _ HI) as W. destruct w; [apply W|contradiction]. }
      destruct (c_store d) as [|x xs]; [congruence|]. cbn [tl app skipn] in *. destruct (c_st d'); congruence.
    - pose proof (ci_wire _ _ HI) as W. rewrite Hw in W. contradiction. }
  assert (Hother : exists k, c_store d' = skipn k (c_store d ++ new_item d e) /\ (m - k <= length (c_store d'))%nat /\
      (cost d' (m - k) <= cost d m)%nat).
  { destruct (c_st d) eqn:E1.
    5: destruct (c_st d') eqn:E2.
    9: { destruct (sf_store _ _ _ _ _ F) as (k & Hk). exists k. split; [auto|]. split; [now apply Hlen|].
         unfold cost. rewrite E1, E2. destruct (m - k)%nat eqn:Em, m; lia. }
    5,6,7,8,9: destruct Hleave as (k & Hk); [reflexivity|discriminate|]; exists (S k); split; [auto|]; split; [now apply Hlen|];
      unfold cost; rewrite E1, E2; destruct (m - S k)%nat eqn:Em, m; lia.
    all: destruct (sf_store _ _ _ _ _ F) as (k & Hk); exists k; split; [auto|]; split; [now apply Hlen|];
         unfold cost; rewrite E1; destruct (m - k)%nat eqn:Em, m, (c_st d'); lia. }
  destruct e as [cok|it| |r| |sok cok].
  6:{ destruct (Nat.ltb_spec 0 m) as [H0|H0].
      - destruct (timer_progress d w sok cok d' os m HI Hst ltac:(lia)) as [(H1 & H2 & H3)|(k & Hk)].
        + exists 0%nat. assert (Hk : c_store d' = skipn 0 (c_store d ++ new_item d (ETimer sok cok))) by (cbn; now rewrite app_nil_r).
          split; [auto|]. split; [now apply Hlen|]. rewrite Nat.sub_0_r. unfold cost. rewrite H3.
          destruct m; [lia|]. destruct (c_st d); try congruence; lia.
        + exists (S k). assert (Hk' : c_store d' = skipn (S k) (c_store d ++ new_item d (ETimer sok cok))) by (cbn [new_item]; now rewrite app_nil_r).
          split; [auto|]. split; [now apply Hlen|]. unfold cost. destruct m; [lia|].
          destruct (S m - S k)%nat eqn:Em; destruct (c_st d), (c_st d'); lia.
      - destruct Hother as (k & K1 & K2 & K3). exists k. do 2 (split; [auto|]). lia. }
  all: destruct Hother as (k & K1 & K2 & K3); exists k; do 2 (split; [auto|]); lia.
Qed.

(** After enough expiries the [m] oldest have been answered, whatever else happens. *)
Lemma run_drain es : forall d w d' tr m, CI d w -> Forall ev_ok es -> lc_run d es = Some (d', tr) ->
  peer_ok (cp d) w tr -> (m <= length (c_store d))%nat -> (cost d m <= expiries tr)%nat -> (m <= served (cp d) tr)%nat.
Proof.
  induction es as [|e es IH]; intros d w d' tr m HI Hev E Hp Hm Hc.
  - inversion E; subst. cbn in Hc. destruct m; [lia|cbn in Hc; destruct (c_st d'); lia].
  - inversion Hev; subst. runstep E. pose proof (step_ok _ _ _ _ _ HI H1 Hen Hst) as F. cbn in Hp. destruct Hp as [Hp1 Hp2].
    pose proof (sf_ans _ _ _ _ _ F Hp1) as Ha. fold (cp d) in Ha. fold (cp d1) in Ha.
    pose proof (answers_next _ _ _ _ Ha) as En. rewrite <- En in Hp2. pose proof (answers_served _ _ _ _ Ha) as Hs.
    destruct (step_cost _ _ _ _ _ m HI H1 Hen Hst Hm) as (k & K1 & K2 & K3).
    assert (IH' : (m - k <= served (cp d1) tr')%nat).
    { eapply (IH d1 _ d' tr'); [apply F|auto|exact Hrun|exact Hp2|exact K2|].
      unfold expiries in *. cbn [filter fst] in Hc.
      destruct e; cbn [length] in Hc; try lia. destruct (Nat.ltb_spec 0 m); [lia|].
      assert (m = 0)%nat by lia. subst. cbn. lia. }
    cbn [served]. rewrite <- En.
    assert (L1 : length (cp d1) = (length (cp d) + length (new_item d e) - k)%nat).
    { unfold cp. rewrite K1, !map_length, skipn_length, app_length. reflexivity. }
    assert (L2 : length (cp d) = length (c_store d)) by (unfold cp; apply map_length).
    assert (L3 : length (new_item d e) = match e with EReq it => if refused (cp d) it then 0 else 1 | _ => 0 end%nat).
    { unfold new_item. destruct e; auto. fold (cp d). now destruct (refused _ _). }
    destruct e; cbv beta iota in *; lia.
Qed.

Lemma run_app es1 : forall es2 d d2 tr, lc_run d (es1 ++ es2) = Some (d2, tr) ->
  exists d1 tr1 tr2, lc_run d es1 = Some (d1, tr1) /\ lc_run d1 es2 = Some (d2, tr2) /\ tr = tr1 ++ tr2.
Proof.
  induction es1 as [|e es1 IH]; intros es2 d d2 tr E.
  - exists d, [], tr. auto.
  - cbn [app] in E. runstep E. apply IH in Hrun as (d3 & t1 & t2 & R1 & R2 & ->).
    exists d3, ((e, os) :: t1), t2. split; [|auto]. unfold lc_run, lc_step in *. cbn [c_run]. now rewrite Hen, Hst, R1.
Qed.


(** * Definedness *)

(** Either the read position is 0 or the buffer starts with a frame that ends before
    the write position. *)
Definition PI (d : lclient) : Prop :=
  c_pos d = 0%nat \/ (6 <= c_len d /\ aduPktLen (c_buf d) + 6 <= c_len d).

Definition not_eof (e : cev) : Prop := e <> EData (RxBytes []).

Lemma bw_pkt b n bs : (6 <= n)%nat -> (n + length bs <= length b)%nat -> aduPktLen (buf_write b n bs) = aduPktLen b.
Proof.
  intros H1 H2. unfold aduPktLen.
  assert (E : forall i, (i < n)%nat -> nth i (buf_write b n bs) 0 = nth i b 0).
  { intros i Hi. unfold buf_write. rewrite app_nth1 by (rewrite firstn_length; lia). now apply nth_firstn_lt. }
  rewrite !E by lia. reflexivity.
Qed.

Lemma receive_defined (d : lclient) r : length (c_buf d) = 512%nat -> bytes_ok (c_buf d) -> 0 <= c_len d <= 512 ->
  PI d -> ev_ok (EData r) -> not_eof (EData r) ->
  exists d1 o1 s, c_receive ls_empty ls_front d r = Some (d1, o1, s) /\ PI d1.
Proof.
  intros Hb Hby Hl HP Hev Hne. unfold c_receive, maxAduLen.
  destruct (Z.ltb_spec 260 (c_len d)) as [H260|H260]; [eauto 6|].
  destruct (if c_fd d then r else RxErr) as [| |bs] eqn:Er; [eauto 6|eauto 6|].
  assert (Hr : r = RxBytes bs) by (destruct (c_fd d); congruence). subst r. cbn in Hev.
  set (bs' := firstn (Z.to_nat (bufMaxLen - c_len d)) bs).
  assert (Hbs' : (length bs' <= Z.to_nat (512 - c_len d))%nat) by (unfold bs'; rewrite firstn_length; unfold bufMaxLen; lia).
  assert (Hbs1 : (0 < length bs')%nat).
  { unfold bs', bufMaxLen. rewrite firstn_length. destruct bs; [exfalso; now apply Hne|]. cbn [length]. lia. }
  set (b := buf_write (c_buf d) (Z.to_nat (c_len d)) bs').
  assert (Hbl : length b = 512%nat) by (unfold b; rewrite bw_length; lia).
  assert (Hbb : bytes_ok b) by (apply bw_bytes; [auto|apply firstn_bytes; auto]).
  assert (Hpk : 6 <= c_len d -> aduPktLen b = aduPktLen (c_buf d)) by (intros; unfold b; apply bw_pkt; lia).
  assert (HP1 : PI (set_buf d b (c_pos d) (c_len d))).
  { destruct HP as [HP|[HP1 HP2]]; [left; exact HP|right]. csimp. rewrite Hpk by lia. auto. }
  assert (HP2 : PI (set_buf d b (c_pos d) (c_len d + Z.of_nat (length bs')))).
  { destruct HP as [HP|[Hp1 Hp2]]; [left; exact HP|right]. csimp. rewrite Hpk by lia. lia. }
  destruct (ls_empty (c_store d)) eqn:Ee; [eauto 6|].
  destruct (c_store d) as [|it rest]; [discriminate|]. cbn [ls_front].
  destruct (frame_check b (c_len d + Z.of_nat (length bs'))) eqn:Efc; try (do 3 eexists; split; [reflexivity|exact HP2]).
  assert (Hv := complete_valid _ _ Efc). unfold isAduValid, aduHdrLen, maxAduLen in Hv.
  assert (Hpos : c_pos d = 0%nat).
  { destruct HP as [HP|[Hp1 Hp2]]; [exact HP|]. rewrite Hpk in Hv by lia. lia. }
  rewrite Hpos. cbn [skipn].
  destruct (decode_rsp_safe b rsp0 Hbb Hbl) as [Hs _]; [reflexivity|reflexivity|].
  assert (HP3 : forall p, PI (set_buf (set_buf d b 0 (c_len d + Z.of_nat (length bs'))) b p (c_len d + Z.of_nat (length bs')))).
  { intros p. right. csimp. split; [|lia].
    unfold frame_check, isAduHdrReceived, aduHdrLen in Efc.
    destruct (Z.leb_spec 6 (c_len d + Z.of_nat (length bs'))); [auto|cbn in Efc; discriminate]. }
  destruct (decode_rsp b rsp0) as [a rs|rs|] eqn:Ed; [| |congruence].
  - destruct (negb (q_tid (i_req it) =? a_tid a)); [do 3 eexists; split; [reflexivity|apply HP3]|].
    destruct (negb (q_addr (i_req it) =? a_addr a)); [do 3 eexists; split; [reflexivity|apply HP3]|].
    destruct (modbusErrorFn =? a_func a); [do 3 eexists; split; [reflexivity|apply HP3]|].
    destruct (negb (q_func (i_req it) =? a_func a)); do 3 eexists; (split; [reflexivity|apply HP3]).
  - do 3 eexists; split; [reflexivity|apply HP3].
Qed.

(** Everything but receive keeps buffer and positions, or resets them. *)
Lemma transit_total (d : lclient) st cok : exists d' os, transit ls_pop d st cok = Some (d', os) /\
  c_store d' = (if cst_eqb (c_st d) st then c_store d else match c_st d with CReceive => tl (c_store d) | _ => c_store d end) /\
  (PI d -> PI d').
Proof.
  unfold transit. destruct (cst_eqb (c_st d) st) eqn:E; [eauto 6|].
  destruct d as [s0 fd tm s b p l]; cbn [c_st c_store] in *. unfold on_exit, on_enter; cbn [c_st c_store].
  assert (Hpop : ls_pop s = Some (tl s)) by (now destruct s). 
  destruct s0, st; try discriminate E; csimp; rewrite ?Hpop; csimp; cbn [c_st];
  try (destruct (_ || _)); (do 2 eexists; split; [reflexivity|split; [reflexivity|intros H; first [left; reflexivity|exact H]]]).
Qed.

Lemma fail_all_total (d : lclient) : (length (c_store d) <= 64)%nat ->
  exists d' os, fail_all ls_empty ls_front ls_pop d = Some (d', os) /\ (PI d -> PI d').
Proof.
  intros H. unfold fail_all. rewrite flush_list by (unfold as_capacity; lia). cbn [close].
  destruct (transit_total (set_fd (set_store d []) false) CBackoff false) as (d' & os & E & _ & HP).
  unfold close. rewrite E. do 2 eexists; split; [reflexivity|]. intros H1. apply HP. exact H1.
Qed.

Lemma step_defined d w e : CI d w -> PI d -> ev_ok e -> enabled d e = true -> not_eof e ->
  exists d' os, lc_step d e = Some (d', os) /\ PI d'.
Proof.
  intros HI HP Hev Hen Hne. pose proof (ci_store _ _ HI) as Hst. pose proof (ci_items _ _ HI) as Hit.
  destruct e as [cok|it| |r| |sok cok]; unfold lc_step, c_step.
  - destruct (transit_total d CConnect cok) as (d' & os & E & _ & H).
    destruct (c_st d); rewrite ?E; eauto 6.
  - unfold on_req. cbn in Hen. unfold ls_push.
    destruct (negb _); [eauto 6|]. destruct (_ <? _); [eauto 6|]. rewrite Hen. cbn [negb].
    destruct (c_st d) eqn:Es;
    try (rewrite flush_list by (cbn [set_store c_store]; rewrite app_length; cbn; unfold as_capacity; lia); eauto 6);
    try eauto 6.
    destruct (transit_total (set_store d (c_store d ++ [stored it])) CSend false) as (d' & os & E & _ & H).
    rewrite E; eauto 6.
  - destruct (transit_total d CConnected false) as (d' & os & E & _ & H).
    destruct (c_st d); rewrite ?E; eauto 6.
  - unfold on_data.
    destruct (receive_defined d r (ci_buf _ _ HI) (ci_bytes _ _ HI) (ci_len _ _ HI) HP Hev Hne) as (d1 & o1 & s & E & HP1).
    assert (Hs1 : c_store d1 = c_store d).
    { clear - E. unfold c_receive in E.
      repeat (match type of E with context [match ?x with _ => _ end] => destruct x in E; try discriminate E end);
      apply some3 in E as (<- & _ & _); reflexivity. }
    destruct (fail_all_total d1) as (d2 & o2 & E2 & H2); [rewrite Hs1; auto|].
    destruct (transit_total d1 CSend false) as (d3 & o3 & E3 & _ & H3).
    destruct (c_st d); rewrite ?E; try eauto 6; destruct s; cbn [andthen]; rewrite ?E2, ?E3; eauto 6.
  - destruct (transit_total (set_fd d false) CBackoff false) as (d' & os & E & _ & H).
    destruct (c_st d); rewrite ?E; eauto 6.
  - unfold on_timer. destruct (c_st d) eqn:Es; cbn [c_st set_timer]; rewrite Es.
    + eauto 6.
    + destruct (transit_total (set_fd (set_timer d None) false) CBackoff cok) as (d' & os & E & _ & H).
      cbn [close andthen]. unfold close. cbn [andthen]. rewrite E. eauto 6.
    + eauto 6.
    + unfold c_send. cbn [c_store set_timer].
      destruct (c_store d) as [|it rest] eqn:Est; cbn [ls_empty ls_front].
      * destruct (transit_total (set_timer d None) CConnected cok) as (d' & os & E & _ & H).
        cbn [andthen]. rewrite E. eauto 6.
      * inversion Hit as [|? ? [Hi1 Hi2] Hi3]; subst.
        destruct (encode_req_safe _ Hi1 Hi2) as [Hs1 Hs2].
        destruct (encode_req (i_req it)); try congruence.
        -- destruct (sok && _).
           ++ destruct (transit_total (set_timer d None) CReceive cok) as (d' & os & E & _ & H9).
              cbn [andthen]. rewrite E. eauto 6.
           ++ destruct (fail_all_total (set_timer d None)) as (d2 & o2 & E2 & H2); [cbn [c_store set_timer]; rewrite Est; auto|].
              cbn [andthen]. rewrite E2. eauto 6.
        -- cbn [ls_pop]. eauto 6.
    + cbn [c_store set_timer].
      destruct (transit_total (set_timer d None) CSend cok) as (d' & os & E & _ & H).
      destruct (c_store d) as [|it rest] eqn:Est; cbn [ls_empty ls_front andthen]; rewrite E; eauto 6.
    + destruct (transit_total (set_timer d None) CConnect cok) as (d' & os & E & _ & H). rewrite E. eauto 6.
Qed.
