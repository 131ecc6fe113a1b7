(** Facts about whole histories of the secure channel layer. *)
From Verif Require Import Base QueueModel QueueSpec QueueProofs PoolModel PoolSpec PoolProofs EntProofs ModbusCodecModel ModbusCodecSpec
  ModbusClientModel ModbusClientProofs UaCodecModel UaCodecSpec UaCodecProofs UaCodecLocal UaTcpModel UaTcpSpec UaTcpProofs UaTcpRuns
  UaChanModel UaChanSpec UaChanProofs.
Local Open Scope Z_scope.

Notation COwn := (POwn chan h_est 32).
Notation nopen := (nact chan h_est).

Record CInv (v : csrv) (tr : ctrace) : Prop := {
  ci_ch : forall i c, nth_error (q_ch v) i = Some c -> CO c (cview_of (Z.of_nat i + 1) tr);
  ci_own : COwn (q_pool v) (q_ch v) (ctotal cbad tr);
  ci_tot : ctotal copens tr = (ctotal cfrees tr + nopen (q_ch v))%nat
}.

Lemma cview_snoc uid tr x : cview_of uid (tr ++ [x]) = cview_next uid (cview_of uid tr) x.
Proof. unfold cview_of. now rewrite fold_left_app. Qed.
Lemma ctotal_snoc f tr x : ctotal f (tr ++ [x]) = (ctotal f tr + f x)%nat.
Proof. unfold ctotal. rewrite map_app, list_sum_app. cbn. lia. Qed.

Lemma cother_facts uid u os : Forall (cabout uid) os -> u <> uid -> filter (is_cfree u) os = [] /\ filter (is_tx u) os = [].
Proof.
  intros H Hne. assert (E : (uid =? u) = false) by (apply Z.eqb_neq; auto).
  induction H as [|o os Ho Hs (A & B)]; [auto|].
  destruct o; cbn in Ho; try subst; cbn [filter is_cfree is_tx]; rewrite ?E, ?A, ?B; auto.
Qed.
Lemma cview_other u w e os uid : Forall (cabout uid) os -> (forall t, cev_chan e = Some t -> t = uid) -> u <> uid ->
  cview_next u w (e, os) = w.
Proof.
  intros Ho Ht Hne. destruct (cother_facts _ _ _ Ho Hne) as (A & B).
  unfold cview_next, ccount. rewrite A, B. cbn [length].
  assert (X : forall t, cev_chan e = Some t -> (t =? u) = false) by (intros t Et; apply Z.eqb_neq; rewrite (Ht t Et); auto).
  assert (Tk : taken u (e, os) = None).
  { destruct e as [m j rnd t1 t2|m j now|m j|h|m|conn ch]; cbn [taken]; auto; cbn [cev_chan] in X; specialize (X _ eq_refl);
      destruct os as [|[] []]; auto; now rewrite X. }
  rewrite Tk.
  assert (W : mkCv (w_opens w) (w_frees w) (w_conn w) (w_tok w) (w_in w) (w_sent w + 0) (w_sess w) = w) by (destruct w; cbn; now rewrite Nat.add_0_r).
  assert (W' : mkCv (w_opens w) (w_frees w + 0) (w_conn w) (w_tok w) (w_in w) (w_sent w) (w_sess w) = w) by (destruct w; cbn; now rewrite Nat.add_0_r).
  destruct e as [m j rnd t1 t2|m j now|m j|h|m|conn ch]; cbn [cev_chan] in X; try specialize (X _ eq_refl); rewrite ?W; try exact W'.
  - destruct os as [|[[] r| | | |] []]; rewrite ?W; try exact W'. apply Forall_inv in Ho. cbn in Ho. rewrite Ho.
    destruct (Z.eqb_spec uid u); [congruence|exact W'].
  - rewrite X. cbn [andb]. exact W'.
Qed.

Lemma crelease_filter os : forall p, csrv_release p os = csrv_release p (filter is_cfree_any os).
Proof. induction os as [|o os IH]; intros p; cbn; [auto|]. destruct o; cbn; auto. destruct (pool_release p chan); auto. Qed.

(** The handler an event goes to. *)
Definition hand (uid : Z) (e : cev) (c : chan) : option (chan * list cout) :=
  match e with
  | CvOpen _ _ _ _ _ => None
  | CvClose m j now => c_close uid c m j now
  | CvMsg m j => c_msg uid c m j
  | CvAssoc h => Some (c_assoc c h, [])
  | CvSend m => c_send uid c m
  | CvRelInd _ ch => Some (c_relind uid c)
  end.
Lemma step_hand v e uid : cev_chan e = Some uid -> csrv_step v e = csrv_on v uid (hand uid e).
Proof. destruct e; cbn; intros H; try discriminate; injection H as <-; reflexivity. Qed.
Lemma hand_step uid e c w c' os : cev_ok e -> cev_chan e = Some uid -> CO c w -> hand uid e c = Some (c', os) ->
  CO c' (cview_next uid w (e, os)) /\ CQ uid c c' os.
Proof.
  intros He Hu HC H. destruct e as [m j rnd t1 t2|m j now|m j|h|m|conn ch]; cbn [hand cev_chan cev_ok] in *; try discriminate.
  - destruct He as (? & ? & _). eapply close_step; eauto. congruence.
  - destruct He as (? & ?). eapply msg_step; eauto. congruence.
  - apply some2 in H as (<- & <-). apply assoc_step; congruence.
  - eapply send_step; eauto.
  - injection Hu as ->. injection H as H. eapply relind_step; eauto.
Qed.

Lemma chan_in v tr uid : CInv v tr -> 1 <= uid <= 32 -> exists c, nth_error (q_ch v) (Z.to_nat (uid - 1)) = Some c /\
  CO c (cview_of uid tr) /\ pool_get (q_pool v) uid = Some (Z.to_nat (uid - 1)).
Proof.
  intros [S O T] Hu. destruct c32 as (C1 & C2 & C3). assert (Hu32 : is_u32 uid) by (unfold is_u32; lia).
  rewrite (own_get _ _ _ C1 C2 C3 _ _ _ _ O Hu32). change (Z.of_nat 32) with 32.
  destruct (Z.leb_spec 1 uid), (Z.leb_spec uid 32); try lia. cbn [andb].
  destruct (nth_error (q_ch v) (Z.to_nat (uid - 1))) as [c|] eqn:En.
  - exists c. split; [auto|]. split; [|auto]. specialize (S _ _ En). now replace (Z.of_nat (Z.to_nat (uid - 1)) + 1) with uid in S by lia.
  - apply nth_error_None in En. rewrite (own_len _ _ _ _ _ _ O) in En. lia.
Qed.

(** An event for a channel is handled by it, and only by it. *)
Lemma on_ok v tr e uid : CInv v tr -> cev_ok e -> cev_chan e = Some uid -> 1 <= uid <= 32 ->
  exists c, nth_error (q_ch v) (Z.to_nat (uid - 1)) = Some c /\ CO c (cview_of uid tr) /\
    match hand uid e c with
    | None => csrv_step v e = None
    | Some (c', os) => (exists v', csrv_step v e = Some (v', os) /\ CInv v' (tr ++ [(e, os)])) /\ CQ uid c c' os
    end.
Proof.
  intros HI He Hc Hu. destruct (chan_in _ _ _ HI Hu) as (c & En & HC & Eg). exists c. split; [auto|]. split; [auto|].
  rewrite (step_hand _ _ _ Hc). unfold csrv_on. rewrite Eg, En. destruct (hand uid e c) as [[c' os]|] eqn:Eh; [|reflexivity].
  destruct (hand_step _ _ _ _ _ _ He Hc HC Eh) as [HC' HQ]. split; [|exact HQ]. pose proof HQ as [Q1 Q2 Q3 Q4].
  pose proof HI as [S O T]. destruct c32 as (C1 & C2 & C3).
  set (i := Z.to_nat (uid - 1)) in *. assert (Hi : Z.of_nat i + 1 = uid) by lia.
  assert (Hlt : (i < length (q_ch v))%nat) by (apply nth_error_Some; congruence).
  assert (Hact := nact_upd chan h_est 32 C1 (q_ch v) i c c' En).
  assert (Hop : copens (e, os) = 0%nat) by (unfold copens, ccount; cbn [snd]; now rewrite Q4).
  assert (Hbd : cbad (e, os) = 0%nat) by (destruct e; try discriminate; reflexivity).
  rewrite crelease_filter, Q2.
  assert (HO : exists p', csrv_release (q_pool v) (if negb (h_est c') && h_est c then [CFree uid] else []) = Some p' /\
     COwn p' (upd (q_ch v) i c') (ctotal cbad tr) /\ nopen (q_ch v) = (nopen (upd (q_ch v) i c') + cfrees (e, os))%nat).
  { change (cfrees (e, os)) with (length (filter is_cfree_any os)). rewrite Q2.
    destruct (h_est c') eqn:E1, (h_est c) eqn:E2; cbn [andb negb bn length csrv_release] in *.
    - exists (q_pool v). split; [auto|]. split; [|lia]. eapply (own_keep _ _ _ C1); [exact O|exact En|congruence].
    - specialize (Q3 eq_refl). congruence.
    - destruct (own_free _ _ _ C1 C2 _ _ _ _ _ c' O En E2 E1) as (p2 & Ep & HO). rewrite Hi in Ep. rewrite Ep.
      exists p2. split; [auto|]. split; [exact HO|lia].
    - exists (q_pool v). split; [auto|]. split; [|lia]. eapply (own_keep _ _ _ C1); [exact O|exact En|congruence]. }
  destruct HO as (p' & Ep & HO & HN). rewrite Ep. eexists. split; [reflexivity|].
  constructor; cbn [q_ch q_pool].
  - intros k x Hk. rewrite cview_snoc. destruct (Nat.eq_dec k i) as [->|Hne].
    + rewrite nth_error_upd_eq in Hk by auto. injection Hk as <-. rewrite Hi. exact HC'.
    + rewrite nth_error_upd_neq in Hk by auto. rewrite (cview_other _ _ _ _ uid Q1); [now apply S|intros t Et; congruence|lia].
  - rewrite ctotal_snoc, Hbd, Nat.add_0_r. exact HO.
  - rewrite !ctotal_snoc, Hop. lia.
Qed.
Lemma on_out v tr e uid : CInv v tr -> cev_chan e = Some uid -> is_u32 uid -> ~ 1 <= uid <= 32 -> csrv_step v e = None.
Proof.
  intros [S O T] Hc Hu Hn. destruct c32 as (C1 & C2 & C3). rewrite (step_hand _ _ _ Hc). unfold csrv_on.
  rewrite (own_get _ _ _ C1 C2 C3 _ _ _ _ O Hu). change (Z.of_nat 32) with 32.
  destruct (Z.leb_spec 1 uid), (Z.leb_spec uid 32); try lia; reflexivity.
Qed.
Lemma ev_u32 e uid : cev_ok e -> cev_chan e = Some uid -> is_u32 uid.
Proof.
  destruct e as [m j rnd t1 t2|m j now|m j|h|m|conn ch]; cbn [cev_chan cev_ok]; intros H E; try discriminate; injection E as <-.
  - destruct H as ((_ & H & _) & _). exact H.
  - destruct H as ((_ & H & _) & _). exact H.
  - destruct H as (_ & H & _). exact H.
  - destruct H as ((_ & H & _) & _). exact H.
  - tauto.
Qed.

Lemma copen_iff c uid tr : CO c (cview_of uid tr) -> (copen uid tr <-> h_est c = true).
Proof.
  unfold CO, copen. destruct (h_est c).
  - intros (A & _). tauto.
  - intros (A & _). split; [lia|congruence].
Qed.

Lemma cinv_new ini v : cini_ok ini -> csrv_new ini = Some v -> CInv v [].
Proof.
  intros [Hl Hi] H. unfold csrv_new in H. rewrite Hl in H. destruct (pool_new 1 32) as [p|] eqn:Ep; [|discriminate]. cbn in H. injection H as <-.
  assert (Ha : forall c, In c (map (fun x : Z * Z => mkCh false 1 (fst x) (snd x) None None) ini) ->
    h_est c = false /\ h_tx c = 1 /\ h_conn c = None /\ h_sess c = None).
  { intros c Hc. apply in_map_iff in Hc as (x & <- & _). auto. }
  constructor; cbn [q_ch q_pool].
  - intros i c E. apply nth_error_In in E. destruct (Ha c E) as (A & B & C & D). unfold CO. rewrite A. cbn. auto.
  - apply own_new; auto; [now rewrite map_length|]. intros c Hc. now apply Ha.
  - unfold ctotal. cbn [map list_sum fold_right]. unfold nact. cbn [plus].
    assert (X : forall l : list (Z * Z), filter h_est (map (fun x => mkCh false 1 (fst x) (snd x) None None) l) = []) by (induction l; cbn; auto).
    now rewrite X.
Qed.

(** An open request. *)
Inductive opening (tr : ctrace) (n : nat) (m : umsg) (j : list Z) (rnd t1 t2 : Z) : list cout -> Prop :=
| op_full : n = 32%nat -> opening tr n m j rnd t1 t2 []
| op_bad uid : (n < 32)%nat -> 1 <= uid <= 32 -> ~ copen uid tr ->
    dec_open_msg (mkSdu 0 (Z.to_nat (um_len m)) (octets m j)) = DThrow -> opening tr n m j rnd t1 t2 [CThrow]
| op_done uid q r b : (n < 32)%nat -> 1 <= uid <= 32 -> ~ copen uid tr ->
    dec_open_msg (mkSdu 0 (Z.to_nat (um_len m)) (octets m j)) = DOk (q, r) b ->
    opening tr n m j rnd t1 t2 [CTx KOpn (rsp_of (um_conn m) uid
       (open_rsp uid (cstart uid tr) (open_req (octets m j)) (rq_handle (oq_hdr r)) (rnd mod 2147483647) t1 t2 (oq_life r)))].

Lemma open_ok v tr m j rnd t1 t2 : CInv v tr -> cev_ok (CvOpen m j rnd t1 t2) ->
  (exists v' os, csrv_step v (CvOpen m j rnd t1 t2) = Some (v', os) /\ CInv v' (tr ++ [(CvOpen m j rnd t1 t2, os)]) /\
     opening tr (nopen (q_ch v) + ctotal cbad tr) m j rnd t1 t2 os) \/
  (csrv_step v (CvOpen m j rnd t1 t2) = None /\ (nopen (q_ch v) + ctotal cbad tr < 32)%nat /\
     (dec_open_msg (mkSdu 0 (Z.to_nat (um_len m)) (octets m j)) = DAbort \/ dec_open_msg (mkSdu 0 (Z.to_nat (um_len m)) (octets m j)) = DOob)).
Proof.
  intros HI (Hm & Hj & Hr & _). pose proof HI as [S O T]. destruct c32 as (C1 & C2 & C3). cbn [csrv_step].
  destruct (own_alloc _ _ _ C1 C2 _ _ _ O) as [(Hf & p' & Ep & O')|(Hf & p' & i & c & Ep & En & Ha & O1 & O2 & Eg)]; rewrite Ep.
  - left. exists (mkCs p' (q_ch v)), []. split; [auto|]. split; [|now constructor].
    constructor; auto; cbn [q_ch q_pool].
    + intros k x Hk. rewrite cview_snoc, (cview_other _ _ _ _ (Z.of_nat k + 2)); [now apply S|auto|discriminate|lia].
    + rewrite ctotal_snoc. cbn. now rewrite Nat.add_0_r.
    + rewrite !ctotal_snoc. cbn. lia.
  - unfold csrv_on. cbn [q_pool q_ch]. set (uid := Z.of_nat i + 1) in *.
    assert (Hlt : (i < 32)%nat) by (rewrite <- (own_len _ _ _ _ _ _ O); apply nth_error_Some; congruence).
    rewrite Eg, (own_get _ _ _ C1 C2 C3 _ _ _ _ O) by lia. change (Z.of_nat 32) with 32.
    destruct (Z.leb_spec 1 uid); [|lia]. destruct (Z.leb_spec uid 32); [|lia]. cbn [andb].
    replace (Z.to_nat (uid - 1)) with i by lia. rewrite En.
    pose proof (S i c En) as HC. fold uid in HC.
    assert (Hno : ~ copen uid tr) by (rewrite (copen_iff _ _ _ HC); congruence).
    assert (Hact := fun c' => nact_upd chan h_est 32 C1 (q_ch v) i c c' En). rewrite Ha in Hact. cbn [bn] in Hact.
    assert (Hview : forall c' os', Forall (cabout uid) os' -> CO c' (cview_next uid (cview_of uid tr) (CvOpen m j rnd t1 t2, os')) ->
       forall k x, nth_error (upd (q_ch v) i c') k = Some x -> CO x (cview_of (Z.of_nat k + 1) (tr ++ [(CvOpen m j rnd t1 t2, os')]))).
    { intros c' os' Hab HC' k x Hk. rewrite cview_snoc. destruct (Nat.eq_dec k i) as [->|Hne].
      - rewrite nth_error_upd_eq in Hk by (rewrite (own_len _ _ _ _ _ _ O); auto). injection Hk as <-. exact HC'.
      - rewrite nth_error_upd_neq in Hk by auto. rewrite (cview_other _ _ _ _ uid); [now apply S|auto|discriminate|lia]. }
    destruct (c_open uid c m j rnd t1 t2) as [[c' os]|] eqn:Eo.
    + left. destruct (open_step _ _ _ _ _ _ _ _ _ _ HC Hm Hj (proj1 Hr) Ha Eo) as (HC' & Hab & Hcs).
      rewrite c_open_eq in Eo by auto. pose proof (Hact c') as Hn.
      destruct (dec_open_msg _) as [[q r] b| | |] eqn:Ed; try discriminate Eo; cbv zeta in Eo; apply some2 in Eo as (<- & <-).
      * destruct Hcs as [(He & _)|(_ & X)]; [|discriminate X]. cbn [csrv_release]. eexists _, _. split; [reflexivity|]. split.
        -- constructor; cbn [q_ch q_pool].
           ++ apply Hview; auto.
           ++ rewrite ctotal_snoc. cbn. rewrite Nat.add_0_r. now apply O1.
           ++ rewrite !ctotal_snoc. hcbn_in Hn. cbn [bn] in Hn.
              match goal with |- (_ + ?a = _ + ?b + _)%nat => assert (a = 1%nat) by reflexivity; assert (b = 0%nat) by reflexivity end. lia.
        -- assert (D : h_tx c = cstart uid tr).
           { unfold CO in HC. rewrite Ha in HC. destruct HC as (_ & _ & _ & ->). reflexivity. }
           rewrite D. eapply op_done; eauto; lia.
      * cbn [csrv_release]. eexists _, _. split; [reflexivity|]. split; [|eapply op_bad; eauto; lia].
        rewrite Ha in Hn. cbn [bn] in Hn. constructor; cbn [q_ch q_pool].
        -- apply Hview; auto.
        -- rewrite ctotal_snoc. cbn. rewrite Nat.add_1_r. now apply O2.
        -- rewrite !ctotal_snoc.
           match goal with |- (_ + ?a = _ + ?b + _)%nat => assert (a = 0%nat) by reflexivity; assert (b = 0%nat) by reflexivity end. lia.
    + right. split; [auto|]. split; [auto|]. rewrite c_open_eq in Eo by auto.
      destruct (dec_open_msg _) as [[q r] b| | |] eqn:Ed; try discriminate Eo; auto.
Qed.

Lemma step_inv v tr e v' os : CInv v tr -> cev_ok e -> csrv_step v e = Some (v', os) -> CInv v' (tr ++ [(e, os)]).
Proof.
  intros HI He H. destruct (cev_chan e) as [uid|] eqn:Ec.
  - assert (D : 1 <= uid <= 32 \/ ~ 1 <= uid <= 32) by lia. destruct D as [D|D].
    + destruct (on_ok _ _ _ _ HI He Ec D) as (c & _ & _ & X). destruct (hand uid e c) as [[c' os']|]; [|congruence].
      destruct X as ((v2 & E & X) & _). rewrite H in E. apply some2 in E as (-> & ->). exact X.
    + rewrite (on_out _ _ _ _ HI Ec (ev_u32 _ _ He Ec) D) in H. discriminate.
  - destruct e as [m j rnd t1 t2|m j now|m j|h|m|conn ch]; try discriminate Ec.
    destruct (open_ok _ _ _ _ _ _ _ HI He) as [(v2 & os2 & E & X & _)|(E & _)]; rewrite H in E; [|discriminate].
    apply some2 in E as (-> & ->). exact X.
Qed.
Lemma reach_inv ini v tr : creach ini v tr -> CInv v tr.
Proof. induction 1; [eapply cinv_new; eauto|eapply step_inv; eauto]. Qed.
Lemma reach_split ini v tr : creach ini v tr -> forall tr1 e os tr2, tr = tr1 ++ (e, os) :: tr2 ->
  exists v1 v2, creach ini v1 tr1 /\ cev_ok e /\ csrv_step v1 e = Some (v2, os) /\ creach ini v2 (tr1 ++ [(e, os)]).
Proof.
  induction 1 as [v Hm Hn|v tr e v' os H IH Hev Hs]; intros tr1 e1 os1 tr2 E.
  - destruct tr1; discriminate.
  - destruct tr2 as [|x tr2'] using rev_ind.
    + apply app_inj_tail in E as [E1 E2]. injection E2 as E2 E3. subst. exists v, v'. repeat split; auto. econstructor; eauto.
    + clear IHtr2'. rewrite app_comm_cons, app_assoc in E. apply app_inj_tail in E as [E _]. eapply IH; eauto.
Qed.
Lemma opened_eq v tr : CInv v tr -> copened tr = nopen (q_ch v).
Proof. intros [_ _ T]. unfold copened. lia. Qed.
